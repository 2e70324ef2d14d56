(* The generated code and the implementations of the model. *)
From Coq Require Import Lia String FinFun.
From Verif Require Import Base BaseFacts Streams Types TypesFacts Traits Encode Decode Sized Macro MacroProofs ErrorText ErrorProofs RustSyntax Codegen SpecCodegen TextProofs WireFacts.
Set Implicit Arguments.
Local Open Scope list_scope.

Lemma ident_eqb_iff a b : ident_eqb a b = true <-> a = b.
Proof. unfold ident_eqb. destruct (list_eq_dec _ a b); split; congruence. Qed.
Lemma ident_eqb_refl a : ident_eqb a a = true.
Proof. apply ident_eqb_iff. reflexivity. Qed.
Lemma ident_eqb_neq a b : a <> b -> ident_eqb a b = false.
Proof. intros H. destruct (ident_eqb a b) eqn:E; [apply ident_eqb_iff in E; contradiction | reflexivity]. Qed.
Lemma mem_iff x l : mem x l = true <-> In x l.
Proof.
  unfold mem. rewrite existsb_exists. split.
  - intros (y & Hy & He). apply ident_eqb_iff in He. subst. exact Hy.
  - intros H. exists x. split; [exact H | apply ident_eqb_refl].
Qed.
Lemma mem_not x l : ~ In x l -> mem x l = false.
Proof. intros H. destruct (mem x l) eqn:E; [apply mem_iff in E; contradiction | reflexivity]. Qed.

Lemma lookup_in {A} (l : list (ident * A)) x a : NoDup (map fst l) -> In (x, a) l -> lookup x l = Some a.
Proof.
  induction l as [|[y b] l IH]; intros Hn Hi; [destruct Hi|]. cbn [lookup map fst] in *. inversion Hn; subst. destruct Hi as [E|Hi].
  - injection E as -> ->. rewrite ident_eqb_refl. reflexivity.
  - rewrite ident_eqb_neq; [apply IH; assumption|]. intros ->. apply H1. apply in_map_iff. exists (y, a). auto.
Qed.
Lemma lookup_app_r {A} (l l' : list (ident * A)) x : ~ In x (map fst l) -> lookup x (l ++ l') = lookup x l'.
Proof.
  induction l as [|[y b] l IH]; intros H; [reflexivity|]. cbn [app lookup map fst] in *. rewrite ident_eqb_neq by (intros ->; apply H; left; reflexivity). apply IH. intros Hx. apply H. right. exact Hx.
Qed.
Lemma lookup_app_l {A} (l l' : list (ident * A)) x a : lookup x l = Some a -> lookup x (l ++ l') = Some a.
Proof.
  induction l as [|[y b] l IH]; intros H; [discriminate|]. cbn [app lookup] in *. destruct (ident_eqb x y); [exact H | apply IH, H].
Qed.

Lemma bind_all_ok consts xs : (forall x, In x (map fst xs) -> ~ In x consts) -> forall sc, bind_all consts xs sc = Some (rev xs ++ sc).
Proof.
  induction xs as [|[x r] xs IH]; intros H sc; cbn [bind_all]; [reflexivity|]. unfold bind.
  rewrite mem_not by (apply H; left; reflexivity). rewrite IH by (intros y Hy; apply H; right; exact Hy).
  cbn [rev]. rewrite <- app_assoc. reflexivity.
Qed.

Lemma capture_inj i j : capture i = capture j -> i = j.
Proof. unfold capture. intros H. apply app_inv_head in H. apply nat_inj in H. exact H. Qed.
Lemma captures_length f : List.length (captures f) = List.length (field_types f).
Proof. unfold captures. rewrite map_length, seq_length. reflexivity. Qed.
Lemma captures_nodup f : NoDup (captures f).
Proof. unfold captures. apply FinFun.Injective_map_NoDup; [exact capture_inj | apply seq_NoDup]. Qed.
Lemma captures_own f x : In x (captures f) -> exists k, x = txt "value" ++ fmt_nat k.
Proof. unfold captures. rewrite in_map_iff. intros (k & <- & _). exists k. reflexivity. Qed.
Lemma stream_not_capture k : n_stream <> txt "value" ++ fmt_nat k.
Proof. unfold n_stream, txt. cbn. discriminate. Qed.

Lemma map_fst_combine {A B} (l : list A) (l' : list B) : List.length l = List.length l' -> map fst (combine l l') = l.
Proof. revert l'. induction l as [|x l IH]; intros [|y l'] H; try discriminate; [reflexivity|]. cbn. f_equal. apply IH. injection H as H. exact H. Qed.
Lemma map_snd_combine {A B} (l : list A) (l' : list B) : List.length l = List.length l' -> map snd (combine l l') = l'.
Proof. revert l'. induction l as [|x l IH]; intros [|y l'] H; try discriminate; [reflexivity|]. cbn. f_equal. apply IH. injection H as H. exact H. Qed.
Lemma typed_length ts vs : List.length ts = List.length vs -> List.length (typed ts vs) = List.length ts.
Proof. intros H. unfold typed. rewrite map_length, combine_length. lia. Qed.

(* taking a value apart binds the captures to the fields, in order *)
Lemma pick_spec names caps rs : forall all, List.length names = List.length caps -> List.length names = List.length rs ->
  (forall f r, In (f, r) (combine names rs) -> lookup f all = Some r) -> pick (combine names caps) all = Some (combine caps rs).
Proof.
  revert caps rs. induction names as [|f names IH]; intros [|c caps] [|r rs] all H1 H2 Hl; try discriminate; [reflexivity|].
  cbn [combine pick]. rewrite (Hl f r) by (left; reflexivity).
  rewrite (IH caps rs all) by (try (injection H1 as H1; exact H1); try (injection H2 as H2; exact H2); intros g q Hg; apply Hl; right; exact Hg).
  reflexivity.
Qed.

Lemma match_fields consts def p i f v vs sc : resolve def p = Some (i, f) -> NoDup (field_names f) -> payload i v = Some (Some vs) ->
  List.length (field_types f) = List.length vs -> (forall x k, In x consts -> x <> txt "value" ++ fmt_nat k) ->
  match_pat consts def (fields_pattern p f) (RSelf v) sc = Some (Some (rev (combine (captures f) (typed (field_types f) vs)) ++ sc)).
Proof.
  intros Hr Hn Hp Hl Hc.
  assert (Hb : forall l, bind_all consts (combine (captures f) l) sc = Some (rev (combine (captures f) l) ++ sc)).
  { intros l. apply bind_all_ok. intros x Hx Hin. apply in_map_iff in Hx. destruct Hx as ([y r] & <- & Hx). apply in_combine_l in Hx.
    apply captures_own in Hx. destruct Hx as [k ->]. exact (Hc _ k Hin eq_refl). }
  destruct f as [|ts|fs]; cbn [fields_pattern match_pat field_types field_names] in *; rewrite Hr.
  - rewrite Hp. reflexivity.
  - rewrite captures_length. cbn [field_types]. rewrite Nat.eqb_refl, Hp, Hb. reflexivity.
  - rewrite combine_length, map_length, captures_length. cbn [field_types]. rewrite map_length, Nat.min_id, Nat.eqb_refl, Hp.
    assert (Ht : List.length (typed (map snd fs) vs) = List.length fs) by (rewrite typed_length, map_length; [reflexivity | exact Hl]).
    rewrite (@pick_spec _ _ (typed (map snd fs) vs)).
    + rewrite Hb. reflexivity.
    + rewrite captures_length. cbn [field_types]. rewrite !map_length. reflexivity.
    + rewrite Ht, map_length. reflexivity.
    + intros g r Hg. unfold field_values. apply lookup_in; [|exact Hg]. rewrite map_fst_combine; [exact Hn | rewrite map_length, Ht; reflexivity].
Qed.

(* ---- encoding *)
Fixpoint agree (sc : scope) (xs : list ident) (ts : list ty) (vs : list val) : Prop :=
  match xs, ts, vs with
  | [], [], [] => True
  | x :: xs', t :: ts', v :: vs' => lookup x sc = Some (RField t v) /\ agree sc xs' ts' vs'
  | _, _, _ => False
  end.

Lemma agree_captures f vs sc : List.length (field_types f) = List.length vs ->
  agree (rev (combine (captures f) (typed (field_types f) vs)) ++ sc) (captures f) (field_types f) vs.
Proof.
  intros Hl. set (all := rev _ ++ sc).
  assert (H : forall x r, In (x, r) (combine (captures f) (typed (field_types f) vs)) -> lookup x all = Some r).
  { intros x r Hi. apply lookup_app_l. apply lookup_in.
    - rewrite map_rev. apply NoDup_rev. rewrite map_fst_combine; [apply captures_nodup|]. rewrite captures_length, typed_length; auto.
    - rewrite <- in_rev. exact Hi. }
  clearbody all. revert H. unfold typed. pose proof (captures_length f) as Hc. revert Hc Hl. generalize (captures f). generalize (field_types f).
  intros ts. revert vs. induction ts as [|t ts IH]; intros [|v vs] [|x xs] H1 H2 H; try discriminate; [exact I|].
  cbn [combine map fst snd agree] in *. split; [apply H; left; reflexivity|]. cbn [List.length] in H1, H2. apply IH; [lia | lia|].
  intros y r Hy. apply H. right. exact Hy.
Qed.

Lemma find_variant_spec vs : forall n i v, NoDup (map nv_name vs) -> nth_error vs n = Some v -> find_variant (nv_name v) vs i = Some ((i + n)%nat, nv_fields v).
Proof.
  induction vs as [|w vs IH]; intros n i v Hn Hv; [destruct n; discriminate|]. cbn [find_variant map] in *. inversion Hn; subst.
  destruct n as [|n]; cbn [nth_error] in Hv.
  - injection Hv as ->. rewrite ident_eqb_refl, Nat.add_0_r. reflexivity.
  - rewrite ident_eqb_neq.
    + rewrite (IH n (S i) v H2 Hv). f_equal. f_equal. lia.
    + intros E. apply H1. rewrite <- E. apply in_map_iff. exists v. split; [reflexivity | eapply nth_error_In; exact Hv].
Qed.
Lemma resolve_variant vs n v : NoDup (map nv_name vs) -> nth_error vs n = Some v -> resolve (NEnum vs) (PVariant (nv_name v)) = Some (Some n, nv_fields v).
Proof. intros Hn Hv. cbn [resolve]. rewrite (@find_variant_spec vs n 0%nat v Hn Hv). reflexivity. Qed.

Lemma match_other consts def p i f j vs sc : resolve def p = Some (Some i, f) -> j <> i ->
  match_pat consts def (fields_pattern p f) (RSelf (VEnum j vs)) sc = Some None.
Proof.
  intros Hr Hj. assert (Hp : payload (Some i) (VEnum j vs) = Some None) by (cbn [payload]; rewrite (proj2 (Nat.eqb_neq j i) Hj); reflexivity).
  destruct f as [|ts|fs]; cbn [fields_pattern match_pat]; rewrite Hr, ?Hp.
  - reflexivity.
  - rewrite captures_length. cbn [field_types]. rewrite Nat.eqb_refl. reflexivity.
  - rewrite combine_length, map_length, captures_length. cbn [field_types]. rewrite map_length, Nat.min_id, Nat.eqb_refl. reflexivity.
Qed.

Lemma nth_error_combine {A B} (l : list A) (l' : list B) : forall n a b, nth_error l n = Some a -> nth_error l' n = Some b -> nth_error (combine l l') n = Some (a, b).
Proof. revert l'. induction l as [|x l IH]; intros [|y l'] [|n] a b Ha Hb; try discriminate; cbn in *; [congruence | apply IH; assumption]. Qed.
Lemma nth_error_combine_snd {A B} (l : list A) (l' : list B) : forall n q, nth_error (combine l l') n = Some q -> nth_error l' n = Some (snd q).
Proof. revert l'. induction l as [|x l IH]; intros [|y l'] [|n] q H; try discriminate; cbn in *; [injection H as <-; reflexivity | apply IH, H]. Qed.

Section Running.
  Context {St : Type}.
  Variable consts : list ident.
  Variable def : ndata.
  Variable enc : ty -> val -> St -> St * res eerr unit.
  Variable dec : ty -> St -> St * res derr val.
  Notation run := (@run St consts def enc dec).

  Definition seq_all (f : eerr -> eerr) : list ty -> list val -> St -> St * res eerr unit :=
    fix go ts vs s :=
      match ts, vs with
      | [], [] => (s, Ok tt)
      | t :: ts', v :: vs' => match enc t v s with (s', Ok _) => go ts' vs' s' | (s', Err e) => (s', Err (f e)) | (s', Panic p) => (s', Panic p) end
      | _, _ => (s, Panic PStuck)
      end.

  Lemma encode_all_run cs f xs : forall ts vs sc k want s,
    (forall e w sc c s s', run w sc c s = (s', Next (RErrE e)) -> run w sc (fold_left KMapErr cs c) s = (s', Next (RErrE (f e)))) ->
    (forall w sc c s s', run w sc c s = (s', Next (ROk RUnit)) -> run w sc (fold_left KMapErr cs c) s = (s', Next (ROk RUnit))) ->
    (forall w sc c s s' p, run w sc c s = (s', Panics p) -> run w sc (fold_left KMapErr cs c) s = (s', Panics p)) ->
    agree sc xs ts vs -> lookup n_stream sc = Some RStream ->
    run want sc (encode_all cs xs k) s =
    match seq_all f ts vs s with
    | (s', Ok _) => run want sc k s'
    | (s', Err e) => (s', Return (RErrE e))
    | (s', Panic p) => (s', Panics p)
    end.
  Proof.
    induction xs as [|x xs IH]; intros [|t ts] [|v vs] sc k want s He Ho Hp Ha Hs; try destruct Ha; [reflexivity|].
    cbn [encode_all seq_all]. cbn [run]. 
    assert (Hx : run None sc (KEncode None (KVar x) n_stream) s =
      match enc t v s with (s, Ok _) => (s, Next (ROk RUnit)) | (s, Err e) => (s, Next (RErrE e)) | (s, Panic p) => (s, Panics p) end).
    { cbn [run]. rewrite Hs, H. reflexivity. }
    destruct (enc t v s) as [s' [u|e|p]].
    - rewrite (Ho _ _ _ _ _ Hx). cbn [then_]. apply IH; assumption.
    - rewrite (He _ _ _ _ _ _ Hx). reflexivity.
    - rewrite (Hp _ _ _ _ _ _ Hx). reflexivity.
  Qed.

  Lemma encode_struct_run f vs s : NoDup (field_names f) -> def = NStruct f -> (forall x, In x consts -> ~ own_name x) ->
    List.length (field_types f) = List.length vs ->
    call_encode_fn consts def enc dec n_self n_stream (encode_struct f) (VTuple vs) s = Some (seq_all into_generic_enc (field_types f) vs s).
  Proof.
    intros Hn Hd Hc Hl. unfold call_encode_fn, call, error_is_clear. rewrite Hd at 1.
    rewrite bind_all_ok.
    2: { intros x [<-|[<-|[]]] Hx; apply (Hc _ Hx); left; cbn; auto. }
    cbn [rev app]. unfold encode_struct. cbn [run].
    change (lookup n_self [(n_stream, RStream); (n_self, RSelf (VTuple vs))]) with (Some (RSelf (VTuple vs))). cbn [then_].
    rewrite (@match_fields consts def PSelf None f (VTuple vs) vs); [|subst def; reflexivity | exact Hn | reflexivity | exact Hl |].
    2: { intros x k Hx ->. apply (Hc _ Hx). right. exists k. reflexivity. }
    rewrite (@encode_all_run [CGenericEnc] into_generic_enc _ (field_types f) vs).
    - destruct (seq_all _ _ _ s) as [s' [[]|e|p]]; reflexivity.
    - intros e w sc c s1 s2 H. cbn [fold_left RustSyntax.run]. rewrite H. reflexivity.
    - intros w sc c s1 s2 H. cbn [fold_left RustSyntax.run]. rewrite H. reflexivity.
    - intros w sc c s1 s2 q H. cbn [fold_left RustSyntax.run]. rewrite H. reflexivity.
    - apply agree_captures. exact Hl.
    - rewrite lookup_app_r; [reflexivity|]. rewrite map_rev. intros H. apply in_rev in H. rewrite map_fst_combine in H by (rewrite captures_length, typed_length; auto).
      apply captures_own in H. destruct H as [k H]. exact (stream_not_capture _ H).
  Qed.

  Lemma arms_encode r vs : forall l rest j0 k d v i fs sc want s, def = NEnum vs -> NoDup (map nv_name vs) ->
    (forall n q, nth_error l n = Some q -> nth_error vs (j0 + n) = Some (snd q)) ->
    nth_error l k = Some (d, v) -> i = (j0 + k)%nat -> NoDup (field_names (nv_fields v)) -> List.length (field_types (nv_fields v)) = List.length fs ->
    (forall x, In x consts -> ~ own_name x) ->
    try_arms consts def (fun sc k s => run want sc k s) (RSelf (VEnum i fs)) sc s (map (fun p => encode_arm r (fst p) (snd p)) l ++ rest) =
    run want (rev (combine (captures (nv_fields v)) (typed (field_types (nv_fields v)) fs)) ++ sc) (snd (encode_arm r d v)) s.
  Proof.
    induction l as [|q l IH]; intros rest j0 k d v i fs sc want s Hd Hn Hall Hk Hi Hnf Hl Hc; [destruct k; discriminate|].
    cbn [map app try_arms]. pose proof (Hall 0%nat q eq_refl) as Hq. rewrite Nat.add_0_r in Hq. destruct k as [|k]; cbn [nth_error] in Hk.
    - injection Hk as ->. cbn [fst snd]. rewrite Nat.add_0_r in Hi. subst i. unfold encode_arm at 1.
      rewrite (@match_fields consts def _ (Some j0) _ (VEnum j0 fs) fs); [reflexivity | | exact Hnf | cbn [payload]; rewrite Nat.eqb_refl; reflexivity | exact Hl |].
      + subst def. apply resolve_variant; assumption.
      + intros x n Hx ->. apply (Hc _ Hx). right. exists n. reflexivity.
    - unfold encode_arm at 1. rewrite (@match_other consts def _ j0); [|subst def; apply resolve_variant; assumption | lia].
      apply (IH rest (S j0) k); try assumption; [|lia].
      intros n q' Hq'. replace (S j0 + n)%nat with (j0 + S n)%nat by lia. apply Hall. exact Hq'.
  Qed.

  Lemma encode_enum_run r ds vs i d v fs s : def = NEnum vs -> names_distinct def -> no_clash consts def ->
    nth_error ds i = Some d -> List.length ds = List.length vs -> nth_error vs i = Some v -> List.length (field_types (nv_fields v)) = List.length fs ->
    call_encode_fn consts def enc dec n_self n_stream (encode_enum r ds vs) (VEnum i fs) s =
    Some match enc (TInt r) (VInt d) s with
         | (s', Ok _) => seq_all (fun e => EField (into_generic_enc e)) (field_types (nv_fields v)) fs s'
         | (s', Err e) => (s', Err (EDisc e))
         | (s', Panic p) => (s', Panic p)
         end.
  Proof.
    intros Hd Hn [Hc He] Hi Hl Hv Hf. unfold names_distinct in Hn. rewrite Hd in Hn, He. destruct Hn as [Hn Hnf].
    unfold call_encode_fn, call, error_is_clear. rewrite Hd at 1. rewrite mem_not by exact He. cbn [negb].
    rewrite bind_all_ok.
    2: { intros x [<-|[<-|[]]] Hx; apply (Hc _ Hx); left; cbn; auto. }
    cbn [rev app]. unfold encode_enum. cbn [RustSyntax.run].
    change (lookup n_self [(n_stream, RStream); (n_self, RSelf (VEnum i fs))]) with (Some (RSelf (VEnum i fs))). cbn [then_].
    rewrite (@arms_encode r vs _ _ 0%nat i d v i fs); try assumption; try reflexivity.
    2: { intros n q Hq. exact (nth_error_combine_snd _ _ _ Hq). }
    2: { apply nth_error_combine; assumption. }
    2: { rewrite Forall_forall in Hnf. apply Hnf. eapply nth_error_In. exact Hv. }
    unfold encode_arm. cbn [snd RustSyntax.run].
    assert (Hs : forall l, lookup n_stream (rev (combine (captures (nv_fields v)) l) ++ [(n_stream, RStream); (n_self, RSelf (VEnum i fs))]) = Some RStream).
    { intros l. rewrite lookup_app_r; [reflexivity|]. rewrite map_rev. intros H. apply in_rev in H. apply in_map_iff in H. destruct H as ([y q] & E & H). cbn [fst] in E. subst y.
      apply in_combine_l in H. apply captures_own in H. destruct H as [k H]. exact (stream_not_capture _ H). }
    rewrite Hs. cbn [then_].
    destruct (enc (TInt r) (VInt d) s) as [s' [[]|e|p]]; cbn [then_ convert]; try reflexivity.
    rewrite (@encode_all_run [CGenericEnc; CEncField] (fun e => EField (into_generic_enc e)) _ (field_types (nv_fields v)) fs).
    - destruct (seq_all _ _ _ s') as [s2 [[]|e|p]]; reflexivity.
    - intros e w sc c s1 s2 H. cbn [fold_left RustSyntax.run]. rewrite H. reflexivity.
    - intros w sc c s1 s2 H. cbn [fold_left RustSyntax.run]. rewrite H. reflexivity.
    - intros w sc c s1 s2 q H. cbn [fold_left RustSyntax.run]. rewrite H. reflexivity.
    - apply agree_captures. exact Hf.
    - apply Hs.
  Qed.

  (* ---- decoding *)
  Definition dec_all (f : derr -> derr) : list ty -> St -> St * res derr (list val) :=
    fix go ts s :=
      match ts with
      | [] => (s, Ok [])
      | t :: ts' =>
        match dec t s with
        | (s', Ok v) => match go ts' s' with (s'', Ok vs) => (s'', Ok (v :: vs)) | (s'', Err e) => (s'', Err e) | (s'', Panic p) => (s'', Panic p) end
        | (s', Err e) => (s', Err (f e))
        | (s', Panic p) => (s', Panic p)
        end
      end.

  (* what a command does *)
  Definition does (f : derr -> derr) (sc : scope) (c : code) : Prop :=
    forall t s, run (Some t) sc c s = match dec t s with (s', Ok v) => (s', Next (RVal v)) | (s', Err e) => (s', Return (RErrD (f e))) | (s', Panic p) => (s', Panics p) end.

  Lemma make_tuple_run f sc c i : does f sc c -> forall ts acc s,
    make_tuple (fun want e s => run want sc e s) i (repeat c (List.length ts)) ts acc s =
    match dec_all f ts s with
    | (s', Ok vs) => (s', Next (RSelf (build i (rev acc ++ vs))))
    | (s', Err e) => (s', Return (RErrD e))
    | (s', Panic p) => (s', Panics p)
    end.
  Proof.
    intros Hc. induction ts as [|t ts IH]; intros acc s; cbn [List.length repeat make_tuple dec_all].
    - rewrite app_nil_r. reflexivity.
    - rewrite Hc. destruct (dec t s) as [s' [v|e|p]]; cbn [then_ as_val]; try reflexivity.
      rewrite IH. destruct (dec_all f ts s') as [s2 [vs|e|p]]; try reflexivity. cbn [rev]. rewrite <- app_assoc. reflexivity.
  Qed.

  Lemma order_spec : forall (fs : list (ident * ty)) vs acc, List.length fs = List.length vs ->
    (forall f v, In (f, v) (combine (map fst fs) vs) -> lookup f acc = Some v) -> order fs acc = Some vs.
  Proof.
    induction fs as [|[f t] fs IH]; intros [|v vs] acc Hl H; try discriminate; [reflexivity|].
    cbn [order map fst combine] in *. rewrite (H f v) by (left; reflexivity). rewrite (IH vs); [reflexivity | injection Hl as Hl; exact Hl|].
    intros g w Hg. apply H. right. exact Hg.
  Qed.

  Lemma combine_app {A B} (l1 l2 : list A) (r1 r2 : list B) : List.length l1 = List.length r1 -> combine (l1 ++ l2) (r1 ++ r2) = combine l1 r1 ++ combine l2 r2.
  Proof. revert r1. induction l1 as [|x l1 IH]; intros [|y r1] H; try discriminate; [reflexivity|]. cbn. f_equal. apply IH. injection H as H. exact H. Qed.

  Lemma make_struct_run f sc c i : does f sc c -> forall rest done vs s,
    NoDup (map fst (done ++ rest)) -> List.length done = List.length vs ->
    make_struct (fun want e s => run want sc e s) i (done ++ rest) (combine (map fst rest) (repeat c (List.length rest))) (rev (combine (map fst done) vs)) s =
    match dec_all f (map snd rest) s with
    | (s', Ok ws) => (s', Next (RSelf (build i (vs ++ ws))))
    | (s', Err e) => (s', Return (RErrD e))
    | (s', Panic p) => (s', Panics p)
    end.
  Proof.
    intros Hc. induction rest as [|[g t] rest IH]; intros done vs s Hn Hl; cbn [map fst snd List.length repeat combine make_struct dec_all].
    - rewrite app_nil_r in *. rewrite (@order_spec done vs); [rewrite app_nil_r; reflexivity | exact Hl|].
      intros x v Hi. apply lookup_in; [|rewrite <- in_rev; exact Hi]. rewrite map_rev. apply NoDup_rev.
      rewrite map_fst_combine; [exact Hn | rewrite map_length; exact Hl].
    - rewrite (@lookup_in _ _ g t Hn) by (apply in_or_app; right; left; reflexivity). rewrite Hc.
      destruct (dec t s) as [s' [v|e|p]]; cbn [then_ as_val]; try reflexivity.
      pose proof (IH (done ++ [(g, t)]) (vs ++ [v]) s') as H. rewrite <- app_assoc in H. cbn [app] in H. specialize (H Hn).
      rewrite map_app, combine_app in H by (rewrite map_length; exact Hl). rewrite rev_app_distr in H. cbn [map fst combine rev app] in H.
      rewrite H by (rewrite !app_length, Hl; reflexivity).
      destruct (dec_all f (map snd rest) s') as [s2 [ws|e|p]]; try reflexivity. rewrite <- app_assoc. reflexivity.
  Qed.

  Lemma fields_value_run f sc c p i fs want s : does f sc c -> resolve def p = Some (i, fs) -> NoDup (field_names fs) ->
    run want sc (fields_value p fs c) s =
    match dec_all f (field_types fs) s with
    | (s', Ok ws) => (s', Next (RSelf (build i ws)))
    | (s', Err e) => (s', Return (RErrD e))
    | (s', Panic p) => (s', Panics p)
    end.
  Proof.
    intros Hc Hr Hn. destruct fs as [|ts|fs]; cbn [fields_value RustSyntax.run field_types]; rewrite Hr.
    - reflexivity.
    - rewrite (@make_tuple_run f sc c i Hc). cbn [rev app]. reflexivity.
    - rewrite combine_length, !map_length, repeat_length, Nat.min_id, Nat.eqb_refl.
      exact (@make_struct_run f sc c i Hc fs [] [] s Hn eq_refl).
  Qed.

  Lemma command_struct sc : lookup n_stream sc = Some RStream -> does into_generic_dec sc (KTry (KMapErr (KDecode None n_stream) CGenericDec)).
  Proof. intros Hs t s. cbn [RustSyntax.run]. rewrite Hs. destruct (dec t s) as [s' [v|e|p]]; reflexivity. Qed.
  Lemma command_enum sc : lookup n_stream sc = Some RStream ->
    does (fun e => DField (into_generic_dec e)) sc (KTry (KMapErr (KMapErr (KDecode None n_stream) CGenericDec) CDecField)).
  Proof. intros Hs t s. cbn [RustSyntax.run]. rewrite Hs. destruct (dec t s) as [s' [v|e|p]]; reflexivity. Qed.

  Definition finish (i : option nat) (r : St * res derr (list val)) : St * res derr val :=
    match r with (s, Ok vs) => (s, Ok (build i vs)) | (s, Err e) => (s, Err e) | (s, Panic p) => (s, Panic p) end.

  Lemma decode_struct_run f s : NoDup (field_names f) -> def = NStruct f -> (forall x, In x consts -> ~ own_name x) ->
    call_decode_fn consts def enc dec n_stream (decode_struct f) s = Some (finish None (dec_all into_generic_dec (field_types f) s)).
  Proof.
    intros Hn Hd Hc. unfold call_decode_fn, call, error_is_clear. rewrite Hd at 1.
    rewrite bind_all_ok by (intros x [<-|[]] Hx; apply (Hc _ Hx); left; cbn; auto).
    cbn [rev app]. unfold decode_struct. cbn [RustSyntax.run].
    rewrite (@fields_value_run into_generic_dec _ _ PSelf None f); [|apply command_struct; reflexivity | subst def; reflexivity | exact Hn].
    destruct (dec_all into_generic_dec (field_types f) s) as [s' [vs|e|p]]; cbn [then_]; try reflexivity.
    cbn [match_pat bind]. unfold bind. rewrite mem_not by (intros Hx; apply (Hc _ Hx); left; cbn; auto). cbn [option_map].
    cbn [lookup]. rewrite ident_eqb_refl. reflexivity.
  Qed.

  Lemma arms_decode vs r d : forall l rest j0 sc s, def = NEnum vs -> NoDup (map nv_name vs) -> Forall (fun v => NoDup (field_names (nv_fields v))) vs ->
    (forall n q, nth_error l n = Some q -> nth_error vs (j0 + n) = Some (snd q)) -> lookup n_stream sc = Some RStream ->
    try_arms consts def (fun sc k s => run None sc k s) (RInt (Some r) d) sc s (map (fun p => decode_arm (fst p) (snd p)) l ++ rest) =
    match find_disc d (map fst l) j0 with
    | Some i =>
      match nth_error vs i with
      | Some v =>
        match dec_all (fun e => DField (into_generic_dec e)) (field_types (nv_fields v)) s with
        | (s', Ok ws) => (s', Next (RSelf (VEnum i ws)))
        | (s', Err e) => (s', Return (RErrD e))
        | (s', Panic p) => (s', Panics p)
        end
      | None => (s, Stuck)
      end
    | None => try_arms consts def (fun sc k s => run None sc k s) (RInt (Some r) d) sc s rest
    end.
  Proof.
    induction l as [|[d' v] l IH]; intros rest j0 sc s Hd Hn Hf Hall Hs; [reflexivity|].
    pose proof (Hall 0%nat _ eq_refl) as Hq. rewrite Nat.add_0_r in Hq. cbn [snd] in Hq.
    cbn [map app try_arms fst snd decode_arm find_disc]. unfold match_pat. rewrite (Z.eqb_sym d' d). destruct (d =? d')%Z.
    - rewrite Hq. rewrite (@fields_value_run (fun e => DField (into_generic_dec e)) _ _ _ (Some j0) (nv_fields v)); [reflexivity | | |].
      + apply command_enum. exact Hs.
      + subst def. apply resolve_variant; assumption.
      + rewrite Forall_forall in Hf. apply Hf. eapply nth_error_In. exact Hq.
    - apply IH; try assumption. intros n q Hq'. replace (S j0 + n)%nat with (j0 + S n)%nat by lia. apply Hall. exact Hq'.
  Qed.

  Lemma decode_enum_run r ds vs s : def = NEnum vs -> names_distinct def -> no_clash consts def -> List.length ds = List.length vs ->
    (forall s s' e, dec (TInt r) s <> (s', Err e)) -> (forall s s' v, dec (TInt r) s = (s', Ok v) -> exists z, v = VInt z) ->
    call_decode_fn consts def enc dec n_stream (decode_enum r ds vs) s =
    Some match dec (TInt r) s with
         | (s', Ok (VInt d)) =>
           match find_disc d ds 0 with
           | Some i =>
             match nth_error vs i with
             | Some v => finish (Some i) (dec_all (fun e => DField (into_generic_dec e)) (field_types (nv_fields v)) s')
             | None => (s', Panic PStuck)
             end
           | None => (s', Err (DUnassigned r d))
           end
         | (s', Ok _) => (s', Panic PStuck)
         | (s', Err e) => (s', Err e)
         | (s', Panic p) => (s', Panic p)
         end.
  Proof.
    intros Hd Hn [Hc He] Hl Hi Hz. unfold names_distinct in Hn. rewrite Hd in Hn, He. destruct Hn as [Hn Hnf].
    unfold call_decode_fn, call, error_is_clear. rewrite Hd at 1. rewrite mem_not by exact He. cbn [negb].
    rewrite bind_all_ok by (intros x [<-|[]] Hx; apply (Hc _ Hx); left; cbn; auto).
    cbn [rev app]. unfold decode_enum. cbn [RustSyntax.run].
    change (lookup n_stream [(n_stream, RStream)]) with (Some RStream). cbv iota.
    destruct (dec (TInt r) s) as [s' [v|e|p]] eqn:Ed; [| exfalso; exact (Hi _ _ _ Ed) | reflexivity].
    destruct (Hz _ _ _ Ed) as [z ->]. cbn [then_ convert]. cbn [match_pat]. unfold bind.
    rewrite mem_not by (intros Hx; apply (Hc _ Hx); left; cbn; auto 6). cbn [option_map].
    cbn [lookup]. rewrite ident_eqb_refl. cbn [then_].
    rewrite (@arms_decode vs r z _ _ 0%nat); try assumption.
    2: { intros n q Hq. exact (nth_error_combine_snd _ _ _ Hq). }
    2: { reflexivity. }
    rewrite map_fst_combine by exact Hl.
    assert (Hr : forall i, find_disc z ds 0 = Some i -> exists v, nth_error vs i = Some v).
    { intros i Hf. assert (Hlt : (i < List.length ds)%nat).
      { revert Hf. assert (G : forall l j, find_disc z l j = Some i -> (i < j + List.length l)%nat).
        { induction l as [|a l IHl]; intros j; cbn [find_disc List.length]; [discriminate|]. destruct (z =? a)%Z; [intros H; injection H as ->; lia | intros H; apply IHl in H; lia]. }
        intros H. apply G in H. exact H. }
      destruct (nth_error vs i) as [v|] eqn:E; [eauto|]. apply nth_error_None in E. lia. }
    destruct (find_disc z ds 0) as [i|].
    - destruct (Hr i eq_refl) as [v Hv]. rewrite Hv.
      destruct (dec_all _ (field_types (nv_fields v)) s') as [s2 [ws|e|p]]; cbn [then_]; try reflexivity.
      rewrite mem_not by (intros Hx; apply (Hc _ Hx); left; cbn; auto). cbn [option_map lookup]. rewrite ident_eqb_refl. reflexivity.
    - cbn [try_arms match_pat]. unfold bind. rewrite mem_not by (intros Hx; apply (Hc _ Hx); left; cbn; auto 7). cbn [option_map].
      cbn [RustSyntax.run lookup]. rewrite ident_eqb_refl. reflexivity.
  Qed.
End Running.


(* ---- What constants in scope can do is to stop the code from compiling. *)
Section CodeInd.
  Variable P : code -> Prop.
  Hypothesis Hvar : forall x, P (KVar x).
  Hypothesis Hlit : forall z, P (KLit z).
  Hypothesis Hunit : P KUnit.
  Hypothesis Hmake : forall p, P (KMake p).
  Hypothesis Htuple : forall p es, Forall P es -> P (KMakeTuple p es).
  Hypothesis Hstruct : forall p es, Forall (fun x => P (snd x)) es -> P (KMakeStruct p es).
  Hypothesis Henc : forall a e s, P e -> P (KEncode a e s).
  Hypothesis Hdec : forall a s, P (KDecode a s).
  Hypothesis Hmap : forall e c, P e -> P (KMapErr e c).
  Hypothesis Htry : forall e, P e -> P (KTry e).
  Hypothesis Hok : forall e, P e -> P (KOk e).
  Hypothesis Hun : forall x, P (KUnassigned x).
  Hypothesis Hret : forall e, P e -> P (KReturn e).
  Hypothesis Hmatch : forall e arms, P e -> Forall (fun x => P (snd x)) arms -> P (KMatch e arms).
  Hypothesis Hlet : forall p e k, P e -> P k -> P (KLet p e k).
  Hypothesis Hseq : forall e k, P e -> P k -> P (KSeq e k).
  Hypothesis Hunr : P KUnreachable.

  Fixpoint code_ind_strong (c : code) : P c :=
    match c with
    | KVar x => Hvar x
    | KLit z => Hlit z
    | KUnit => Hunit
    | KMake p => Hmake p
    | KMakeTuple p es =>
      Htuple p ((fix go l : Forall P l := match l with [] => Forall_nil _ | x :: l' => Forall_cons _ (code_ind_strong x) (go l') end) es)
    | KMakeStruct p es =>
      Hstruct p ((fix go l : Forall (fun x => P (snd x)) l := match l with [] => Forall_nil _ | x :: l' => Forall_cons x (code_ind_strong (snd x)) (go l') end) es)
    | KEncode a e s => Henc a s (code_ind_strong e)
    | KDecode a s => Hdec a s
    | KMapErr e c => Hmap c (code_ind_strong e)
    | KTry e => Htry (code_ind_strong e)
    | KOk e => Hok (code_ind_strong e)
    | KUnassigned x => Hun x
    | KReturn e => Hret (code_ind_strong e)
    | KMatch e arms =>
      Hmatch (code_ind_strong e) ((fix go l : Forall (fun x => P (snd x)) l := match l with [] => Forall_nil _ | x :: l' => Forall_cons x (code_ind_strong (snd x)) (go l') end) arms)
    | KLet p e k => Hlet p (code_ind_strong e) (code_ind_strong k)
    | KSeq e k => Hseq (code_ind_strong e) (code_ind_strong k)
    | KUnreachable => Hunr
    end.
End CodeInd.

Lemma bind_all_consts consts l : forall sc sc', bind_all consts l sc = Some sc' -> bind_all [] l sc = Some sc'.
Proof.
  induction l as [|[x r] l IH]; intros sc sc' H; [exact H|]. cbn [bind_all] in *. unfold bind in *. destruct (mem x consts); [discriminate|].
  cbn [mem existsb]. apply IH. exact H.
Qed.

Lemma match_pat_consts consts def p r sc q : match_pat consts def p r sc = Some q -> match_pat [] def p r sc = Some q.
Proof.
  assert (Hb : forall l, option_map Some (bind_all consts l sc) = Some q -> option_map Some (bind_all [] l sc) = Some q).
  { intros l H. destruct (bind_all consts l sc) as [sc'|] eqn:E; [|discriminate]. rewrite (bind_all_consts _ _ _ E). exact H. }
  destruct p as [p|p xs|p fs|z|x|]; cbn [match_pat]; try (intros H; exact H).
  - destruct r; try (intros H; exact H). destruct (resolve def p) as [[i [|ts|fs]]|]; try (intros H; exact H).
    destruct (_ =? _)%nat; [|intros H; exact H]. destruct (payload i v) as [[vs|]|]; try (intros H; exact H). apply Hb.
  - destruct r; try (intros H; exact H). destruct (resolve def p) as [[i [|ts|fs']]|]; try (intros H; exact H).
    destruct (_ =? _)%nat; [|intros H; exact H]. destruct (payload i v) as [[vs|]|]; try (intros H; exact H).
    destruct (pick fs (field_values fs' vs)); [|intros H; exact H]. apply Hb.
  - unfold bind. destruct (mem x consts); [discriminate|]. intros H. exact H.
Qed.

Section Consts.
  Context {St : Type}.
  Variable consts : list ident.
  Variable def : ndata.
  Variable enc : ty -> val -> St -> St * res eerr unit.
  Variable dec : ty -> St -> St * res derr val.
  Notation run := (@run St consts def enc dec).
  Notation run0 := (@RustSyntax.run St [] def enc dec).

  Definition compiles (x : St * flow) : Prop := match snd x with Stuck => False | _ => True end.
  Lemma then_compiles a k : compiles (then_ a k) -> compiles a.
  Proof. destruct a as [s []]; cbn; auto. Qed.
  Lemma then_same (a b : St * flow) k k' : (compiles a -> a = b) -> compiles (then_ a k) ->
    (forall s r, a = (s, Next r) -> compiles (k r s) -> k r s = k' r s) -> then_ a k = then_ b k'.
  Proof.
    intros Ha Hc Hk. rewrite <- (Ha (then_compiles _ _ Hc)). destruct a as [s [r|r|p|]]; cbn [then_] in *; try reflexivity. apply (Hk s r eq_refl Hc).
  Qed.

  Lemma run_consts c : forall want sc s, compiles (run want sc c s) -> run want sc c s = run0 want sc c s.
  Proof.
    induction c using code_ind_strong; intros want sc s0 Hc; cbn [RustSyntax.run] in *; try reflexivity.
    - destruct (resolve def p) as [[i [|ts|fs]]|]; try reflexivity. revert ts s0 Hc. generalize (@nil val).
      induction H as [|e es He _ IH]; intros acc [|t ts] s Hc; cbn [make_tuple] in *; try reflexivity.
      apply then_same; [intros H; apply He, H | exact Hc|]. intros s' r Hr. destruct (as_val r); [apply IH | reflexivity].
    - destruct (resolve def p) as [[i [|ts|fs]]|]; try reflexivity. destruct (_ =? _)%nat; [|reflexivity].
      revert s0 Hc. generalize (@nil (ident * val)).
      induction H as [|[f e] es He _ IH]; intros acc s Hc; cbn [make_struct] in *; try reflexivity.
      destruct (lookup f fs); [|reflexivity].
      apply then_same; [intros H; apply He, H | exact Hc|]. intros s' r Hr. destruct (as_val r); [apply IH | reflexivity].
    - destruct (lookup s sc) as [[]|]; try reflexivity. apply then_same; [intros H; apply IHc, H | exact Hc | reflexivity].
    - apply then_same; [intros H; apply IHc, H | exact Hc | reflexivity].
    - apply then_same; [intros H; apply IHc, H | exact Hc | reflexivity].
    - apply then_same; [intros H; apply IHc, H | exact Hc | reflexivity].
    - apply then_same; [intros H; apply IHc, H | exact Hc | reflexivity].
    - apply then_same; [intros H'; apply IHc, H' | exact Hc|]. intros s' r _ Hk. clear Hc. revert Hk.
      induction H as [|[p k] arms Hp _ IH]; intros Hk; cbn [try_arms] in *; [reflexivity|].
      destruct (match_pat consts def p r sc) as [q|] eqn:E; [|destruct Hk]. rewrite (match_pat_consts _ _ _ _ _ E).
      destruct q as [sc'|]; [apply Hp, Hk | apply IH, Hk].
    - apply then_same; [intros H'; apply IHc1, H' | exact Hc|]. intros s' r _ Hk.
      destruct (match_pat consts def p r sc) as [q|] eqn:E; [|destruct Hk]. rewrite (match_pat_consts _ _ _ _ _ E).
      destruct q as [sc'|]; [apply IHc2, Hk | reflexivity].
    - apply then_same; [intros H'; apply IHc1, H' | exact Hc|]. intros s' r _ Hk. apply IHc2, Hk.
  Qed.

  Lemma call_consts c params s r : call consts def enc dec c params s = Some r -> call [] def enc dec c params s = Some r.
  Proof.
    unfold call. destruct (error_is_clear def); [|discriminate]. destruct (bind_all consts params []) as [sc|] eqn:E; [|discriminate].
    rewrite (bind_all_consts _ _ _ E). intros H.
    assert (Hr : compiles (run None sc c s)) by (unfold compiles; destruct (run None sc c s) as [s' []]; try exact I; discriminate).
    rewrite <- (@run_consts c None sc s Hr). exact H.
  Qed.
  Lemma call_clear c params s r : call consts def enc dec c params s = Some r -> error_is_clear def = true.
  Proof. unfold call. destruct (error_is_clear def); [reflexivity | discriminate]. Qed.
End Consts.

(* ---- The model's implementations *)
Lemma seq_all_fields ch f ts : forall vs o, seq_all (encode ch) f ts vs o = enc_fields (map (encode ch) ts) f vs o.
Proof.
  induction ts as [|t ts IH]; intros [|v vs] o; cbn [seq_all map enc_fields]; try reflexivity. unfold eseq, emap_err.
  destruct (encode ch t v o) as [o' [[]|e|p]]; [apply IH | reflexivity | reflexivity].
Qed.
Lemma dec_all_fields f ts : forall s, dec_all decode f ts s = dec_fields f (map decode ts) s.
Proof.
  induction ts as [|t ts IH]; intros s; cbn [dec_all map dec_fields]; [reflexivity|]. unfold dbind, dmap_err, dmap, dbind.
  destruct (decode t s) as [s' [v|e|p]]; try reflexivity. rewrite IH. destruct (dec_fields f (map decode ts) s') as [s2 [vs|e|p]]; reflexivity.
Qed.
Lemma all2_length {A} (ps : list (A -> Prop)) : forall xs, all2 ps xs -> List.length ps = List.length xs.
Proof. induction ps as [|p ps IH]; intros [|x xs] H; try destruct H; [reflexivity|]. cbn. f_equal. apply IH. assumption. Qed.
Lemma read_length vs : forall prev ds, read_from prev vs = Some ds -> List.length ds = List.length vs.
Proof.
  induction vs as [|v vs IH]; intros prev ds H; cbn [read_from] in H; [injection H as <-; reflexivity|].
  destruct (match v with Some e => option_map Some (read_expr e) | None => Some None end) as [x|]; [|discriminate].
  destruct (next_discriminant prev x) as [d|]; [|discriminate]. destruct (read_from (Some d) vs) as [ds'|] eqn:E; [|discriminate].
  injection H as <-. cbn [List.length]. f_equal. exact (IH _ _ E).
Qed.

Definition strip_variant (v : nvariant) : variant := Variant (nv_disc v) (field_types (nv_fields v)).
Lemma strip_discs vs : map v_disc (map strip_variant vs) = map nv_disc vs.
Proof. rewrite map_map. reflexivity. Qed.
Lemma strip_fields vs : map v_fields (map strip_variant vs) = map (fun v => field_types (nv_fields v)) vs.
Proof. rewrite map_map. reflexivity. Qed.

Lemma same_panics_lemma tr attrs def : derive_code tr attrs def = None <-> derive tr (Item attrs (strip def)) = None.
Proof.
  destruct def as [f|vs|f]; unfold derive; cbn [derive_code strip it_data it_attrs]; [destruct tr; split; discriminate | | split; reflexivity].
  destruct (repr_of attrs) as [r|]; [|split; reflexivity]. change (fun v => Variant (nv_disc v) (field_types (nv_fields v))) with strip_variant.
  destruct tr; rewrite ?strip_discs; try (split; discriminate); destruct (read_discriminants (map nv_disc vs)); split; (discriminate || reflexivity).
Qed.

(* the parts of an enumeration *)
Lemma enum_parts (ds : list Z) (vs : list nvariant) : List.length ds = List.length vs ->
  discriminants (map fst (combine (map Some ds) (map (fun v => field_types (nv_fields v)) vs))) = Some ds /\
  map snd (combine (map Some ds) (map (fun v => field_types (nv_fields v)) vs)) = map (fun v => field_types (nv_fields v)) vs.
Proof.
  intros Hl. rewrite map_fst_combine, map_snd_combine by (rewrite !map_length; exact Hl). split; [apply discriminants_explicit | reflexivity].
Qed.

Lemma encode_ok consts attrs def i t ch v o : names_distinct def -> no_clash consts def -> derive_code TrEncode attrs def = Some i ->
  derive TrEncode (Item attrs (strip def)) = Some t -> wt t v -> run_encode consts def (encode ch) i v o = Some (encode ch t v o).
Proof.
  intros Hn Hc Hi Ht Hw. destruct def as [f|vs|f]; unfold derive in Ht; cbn [derive_code strip it_data it_attrs] in Hi, Ht; [| |discriminate].
  - injection Hi as <-. injection Ht as <-. destruct v; try (destruct Hw; fail).
    cbn [wt] in Hw. apply all2_length in Hw. rewrite map_length in Hw. cbn [run_encode encode].
    rewrite <- seq_all_fields. apply encode_struct_run; [exact Hn | reflexivity | exact (proj1 Hc) | exact Hw].
  - destruct (repr_of attrs) as [r|]; [|discriminate]. change (fun v => Variant (nv_disc v) (field_types (nv_fields v))) with strip_variant in Ht.
    rewrite strip_discs, strip_fields in Ht. destruct (read_discriminants (map nv_disc vs)) as [ds|] eqn:Ed; [|discriminate].
    injection Hi as <-. injection Ht as <-. apply read_length in Ed. rewrite map_length in Ed. destruct (enum_parts _ _ Ed) as [Ep Es].
    destruct v; try (destruct Hw; fail). cbn [wt] in Hw. destruct Hw as [_ Hw].
    cbn [run_encode encode]. rewrite Ep. rewrite <- (map_map snd (map (encode ch))). rewrite <- (map_map snd (map wt)) in Hw. rewrite Es in Hw |- *.
    rewrite map_map in Hw |- *. unfold enc_enum. rewrite nth_error_map in Hw |- *.
    destruct (nth_error vs i) as [nv|] eqn:Ev; cbn [option_map] in *; [|destruct Hw].
    apply all2_length in Hw. rewrite map_length in Hw.
    destruct (nth_error ds i) as [d|] eqn:Edi.
    2: { apply nth_error_None in Edi. pose proof (proj1 (nth_error_Some vs i)) as H. rewrite Ev in H. specialize (H ltac:(discriminate)). lia. }
    rewrite (@encode_enum_run _ consts (NEnum vs) (encode ch) _ r ds vs i d nv); try assumption; try reflexivity.
    unfold eseq, emap_err. cbn [encode]. destruct (enc_int r d o) as [o' [[]|e|p]]; try reflexivity. rewrite seq_all_fields. reflexivity.
Qed.

Lemma decode_ok consts attrs def i t s : names_distinct def -> no_clash consts def -> derive_code TrDecode attrs def = Some i ->
  derive TrDecode (Item attrs (strip def)) = Some t -> run_decode consts def decode i s = Some (decode t s).
Proof.
  intros Hn Hc Hi Ht. destruct def as [f|vs|f]; unfold derive in Ht; cbn [derive_code strip it_data it_attrs] in Hi, Ht; [| |discriminate].
  - injection Hi as <-. injection Ht as <-. cbn [run_decode decode].
    rewrite (@decode_struct_run _ consts (NStruct f) _ decode f s Hn eq_refl (proj1 Hc)). rewrite dec_all_fields. unfold dmap, dbind.
    destruct (dec_fields _ _ s) as [s' [ws|e|p]]; reflexivity.
  - destruct (repr_of attrs) as [r|]; [|discriminate]. change (fun v => Variant (nv_disc v) (field_types (nv_fields v))) with strip_variant in Ht.
    rewrite strip_discs, strip_fields in Ht. destruct (read_discriminants (map nv_disc vs)) as [ds|] eqn:Ed; [|discriminate].
    injection Hi as <-. injection Ht as <-. apply read_length in Ed. rewrite map_length in Ed. destruct (enum_parts _ _ Ed) as [Ep Es].
    cbn [run_decode decode]. rewrite Ep. rewrite <- (map_map snd (map decode)). rewrite Es. rewrite map_map.
    rewrite (@decode_enum_run _ consts (NEnum vs) _ decode r ds vs s); try assumption; try reflexivity.
    + f_equal. cbn [decode]. unfold dec_enum, dmap, dbind, dok. destruct (dec_int r s) as [s' [d|e|p]]; try reflexivity. cbv beta iota.
      destruct (find_disc d ds 0) as [k|]; [|reflexivity]. rewrite nth_error_map. destruct (nth_error vs k) as [nv|]; [|reflexivity]. cbn [option_map].
      rewrite dec_all_fields. destruct (dec_fields _ _ s') as [s2 [ws|e|p]]; reflexivity.
    + intros s1 s2 e He. cbn [decode] in He. unfold dmap, dbind in He. destruct (dec_int r s1) as [s3 [d|e'|p]] eqn:E; try discriminate.
      exact (@DErrs_int r (fun _ => False) _ _ _ E).
    + intros s1 s2 w Hw. cbn [decode] in Hw. unfold dmap, dbind in Hw. destruct (dec_int r s1) as [s3 [d|e'|p]] eqn:E; try discriminate.
      injection Hw as _ <-. exists d. reflexivity.
Qed.

Lemma no_clash_clear def : error_is_clear def = true -> no_clash [] def.
Proof.
  intros H. split; [intros x []|]. destruct def as [f|vs|f]; try exact I. cbn [error_is_clear] in H. intros Hin. apply mem_iff in Hin. rewrite Hin in H. discriminate.
Qed.

Lemma encode_if_compiles consts attrs def i t ch v o r : names_distinct def -> derive_code TrEncode attrs def = Some i ->
  derive TrEncode (Item attrs (strip def)) = Some t -> wt t v -> run_encode consts def (encode ch) i v o = Some r -> r = encode ch t v o.
Proof.
  intros Hn Hi Ht Hw Hr.
  assert (H0 : run_encode [] def (encode ch) i v o = Some r /\ error_is_clear def = true).
  { destruct i as [[]|]; try discriminate. unfold run_encode, call_encode_fn in *. destruct (call consts def _ _ _ _ o) as [x|] eqn:E; [|discriminate].
    rewrite (call_consts _ _ _ _ _ _ _ E). split; [exact Hr | exact (call_clear _ _ _ _ _ _ _ E)]. }
  destruct H0 as [H0 He]. rewrite (@encode_ok [] attrs def i t ch v o Hn (no_clash_clear _ He) Hi Ht Hw) in H0. injection H0 as <-. reflexivity.
Qed.
Lemma decode_if_compiles consts attrs def i t s r : names_distinct def -> derive_code TrDecode attrs def = Some i ->
  derive TrDecode (Item attrs (strip def)) = Some t -> run_decode consts def decode i s = Some r -> r = decode t s.
Proof.
  intros Hn Hi Ht Hr.
  assert (H0 : run_decode [] def decode i s = Some r /\ error_is_clear def = true).
  { destruct i as [[]|]; try discriminate. unfold run_decode, call_decode_fn in *. destruct (call consts def _ _ _ _ s) as [x|] eqn:E; [|discriminate].
    rewrite (call_consts _ _ _ _ _ _ _ E). split; [exact Hr | exact (call_clear _ _ _ _ _ _ _ E)]. }
  destruct H0 as [H0 He]. rewrite (@decode_ok [] attrs def i t s Hn (no_clash_clear _ He) Hi Ht) in H0. injection H0 as <-. reflexivity.
Qed.

(* ---- sizes *)
Local Open Scope N_scope.
Definition add_opt (a b : option N) : option N := match a, b with Some m, Some n => Some (m + n) | _, _ => None end.
Lemma sum_of_eval size_of sc ts : neval size_of sc (sum_of ts) = sum_opt (map (max_size size_of) ts).
Proof.
  unfold sum_of.
  assert (H : forall e, neval size_of sc (fold_left NAdd (map NMaxSize ts) e) = add_opt (neval size_of sc e) (sum_opt (map (max_size size_of) ts))).
  { induction ts as [|t ts IH]; intros e; cbn [map fold_left sum_opt]; [destruct (neval size_of sc e) as [n|]; cbn; [f_equal; lia | reflexivity]|].
    rewrite IH. cbn [neval]. destruct (neval size_of sc e) as [n|]; cbn [add_opt]; [|destruct (max_size size_of t); reflexivity].
    destruct (max_size size_of t) as [m|]; cbn [add_opt]; [|reflexivity]. destruct (sum_opt _) as [k|]; cbn [option_map add_opt]; [f_equal; lia | reflexivity]. }
  rewrite H. cbn [neval add_opt]. destruct (sum_opt _) as [n|]; reflexivity.
Qed.
Lemma sum_opt_snoc l n : sum_opt (l ++ [Some n]) = option_map (N.add n) (sum_opt l).
Proof.
  induction l as [|[m|] l IH]; cbn [app sum_opt option_map]; [reflexivity | | reflexivity]. rewrite IH. destruct (sum_opt l) as [k|]; cbn [option_map]; [f_equal; lia | reflexivity].
Qed.

Definition sized_steps (r : ity) (vs : list nvariant) : list stmt :=
  flat_map (fun v => [SAssign n_current (sum_of (field_types (nv_fields v) ++ [TInt r])); SIfGreater n_current n_total n_total n_current]) vs.
Definition variant_size (size_of : size_of_fn) (r : ity) (v : nvariant) : option N := option_map (N.add (int_size r)) (sum_opt (map (max_size size_of) (field_types (nv_fields v)))).

Lemma steps_run consts size_of r : forall vs total current,
  match exec_all consts size_of (sized_steps r vs) [(n_current, current); (n_total, total)] with
  | Some sc => lookup n_total sc
  | None => None
  end = option_map (N.max total) (max_opt (map (variant_size size_of r) vs)).
Proof.
  induction vs as [|v vs IH]; intros total current; cbn [sized_steps flat_map app exec_all map max_opt].
  - change (lookup n_total [(n_current, current); (n_total, total)]) with (Some total). cbn [option_map]. f_equal. lia.
  - fold (sized_steps r vs). cbn [exec]. rewrite sum_of_eval. rewrite map_app. cbn [map]. change (max_size size_of (TInt r)) with (Some (int_size r)). rewrite sum_opt_snoc.
    fold (variant_size size_of r v). destruct (variant_size size_of r v) as [n|]; [|reflexivity].
    change (set n_current n [(n_current, current); (n_total, total)]) with (Some [(n_current, n); (n_total, total)]). cbv beta iota.
    change (lookup n_current [(n_current, n); (n_total, total)]) with (Some n). change (lookup n_total [(n_current, n); (n_total, total)]) with (Some total). cbv beta iota.
    assert (Hm : option_map (N.max total) (option_map (N.max n) (max_opt (map (variant_size size_of r) vs))) =
                 option_map (N.max (N.max total n)) (max_opt (map (variant_size size_of r) vs))).
    { destruct (max_opt _) as [k|]; cbn [option_map]; [f_equal; lia | reflexivity]. }
    rewrite Hm. destruct (N.ltb_spec total n) as [Hlt|Hge].
    + change (set n_total n [(n_current, n); (n_total, total)]) with (Some [(n_current, n); (n_total, n)]). cbv beta iota. rewrite IH. rewrite N.max_r by lia. reflexivity.
    + rewrite IH. rewrite N.max_l by lia. reflexivity.
Qed.

Lemma exec_all_consts consts size_of l : forall sc sc', exec_all consts size_of l sc = Some sc' -> exec_all [] size_of l sc = Some sc'.
Proof.
  induction l as [|st l IH]; intros sc sc' H; [exact H|]. cbn [exec_all] in *. destruct (exec consts size_of st sc) as [sc1|] eqn:E; [|discriminate].
  assert (E' : exec [] size_of st sc = Some sc1).
  { destruct st; try exact E. cbn [exec] in *. destruct (mem x consts); [discriminate | exact E]. }
  rewrite E'. apply IH. exact H.
Qed.

Lemma size_ok consts attrs def i t size_of : (forall x, In x consts -> ~ own_name x) -> derive_code TrSizedEncode attrs def = Some i ->
  derive TrSizedEncode (Item attrs (strip def)) = Some t -> run_const consts size_of i = max_size size_of t.
Proof.
  intros Hc Hi Ht. destruct def as [f|vs|f]; unfold derive in Ht; cbn [derive_code strip it_data it_attrs] in Hi, Ht; [| |discriminate].
  - injection Hi as <-. injection Ht as <-. cbn [run_const sized_encode_struct const_value exec_all max_size]. apply sum_of_eval.
  - destruct (repr_of attrs) as [r|]; [|discriminate]. injection Hi as <-. injection Ht as <-. rewrite map_map. cbn [v_fields].
    unfold run_const, sized_encode_enum, const_value. fold (sized_steps r vs). cbn [app exec_all exec neval option_map].
    rewrite !mem_not by (intros Hx; apply (Hc _ Hx); left; cbn; auto 9). cbv beta iota.
    pose proof (steps_run consts size_of r vs 0 0) as H.
    destruct (exec_all consts size_of (sized_steps r vs) [(n_current, 0); (n_total, 0)]) as [sc|]; rewrite H; cbn [max_size]; rewrite map_map; cbn [snd];
      fold (variant_size size_of r); destruct (max_opt _); cbn [option_map]; rewrite ?N.max_0_l; reflexivity.
Qed.
Lemma size_if_compiles consts attrs def i t size_of n : derive_code TrSizedEncode attrs def = Some i ->
  derive TrSizedEncode (Item attrs (strip def)) = Some t -> run_const consts size_of i = Some n -> max_size size_of t = Some n.
Proof.
  intros Hi Ht Hr. assert (H0 : run_const [] size_of i = Some n).
  { destruct i as [|[l e]]; [discriminate|]. unfold run_const, const_value in *. destruct (exec_all consts size_of l []) as [sc|] eqn:E; [|discriminate].
    rewrite (exec_all_consts _ _ _ _ E). exact Hr. }
  rewrite (@size_ok [] attrs def i t size_of) in H0; [exact H0 | intros x [] | exact Hi | exact Ht].
Qed.
