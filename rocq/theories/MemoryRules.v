(* Symbolic execution of the interpreter of SourceMemory.v: one equation for each form of expression, and the tactics that apply them. *)
From Coq Require Import Lia.
From Verif Require Import Base Streams Utf8 Types Mem SourceNames SourceSyntax SourceMeaning.
From Verif Require Import SourceOutput SourceInput SourceSlot SourceSizedSlice SourceSizedIter SourceSizedStr SourceMemory SpecMemory.

Section Rules.
Variables A S : Type.
Implicit Types (c : mctx A S) (ρ : menv A) (m : mem A S) (brk : menv A -> mem A S -> mres A S) (k : mval A -> menv A -> mem A S -> mres A S).

Lemma ev_unit : forall c ρ m brk k, evaluate c EUnit ρ m brk k = k (MTup []) ρ m. Proof. reflexivity. Qed.
Lemma ev_int : forall c z s ρ m brk k, evaluate c (EInt z s) ρ m brk k = k (MNum (Z.to_nat z)) ρ m. Proof. reflexivity. Qed.
Lemma ev_name : forall c x ts ρ m brk k, evaluate c (EPath [(x, ts)]) ρ m brk k =
  match lookup x ρ with
  | Some v => k v ρ m
  | None =>
    if name_eqb x id_N then k (MNum (k_len c)) ρ m
    else if name_eqb x id_None then k (MCon id_None []) ρ m
    else if name_eqb x id_PhantomData then k (MTup []) ρ m
    else lost m
  end.
Proof. reflexivity. Qed.
Lemma ev_name2 : forall c q ts x ts' ρ m brk k, evaluate c (EPath [(q, ts); (x, ts')]) ρ m brk k =
  if name_eqb x id_MAX_ENCODED_SIZE then k (MNum (k_max c)) ρ m else lost m.
Proof. reflexivity. Qed.
Lemma ev_tuple0 : forall c ρ m brk k, evaluate c (ETuple []) ρ m brk k = k (MTup []) ρ m. Proof. reflexivity. Qed.
Lemma ev_tuple2 : forall c a b ρ m brk k, evaluate c (ETuple [a; b]) ρ m brk k =
  evaluate c a ρ m brk (fun v ρ m => evaluate c b ρ m brk (fun w ρ m => k (MTup [v; w]) ρ m)).
Proof. reflexivity. Qed.
Lemma ev_rec2 : forall c p x a y b ρ m brk k, evaluate c (ERec p [(x, a); (y, b)]) ρ m brk k =
  match last_name p with
  | Some z =>
    evaluate c a ρ m brk (fun v ρ m => evaluate c b ρ m brk (fun w ρ m =>
      fresh m (OStruct (resolve c z) [(x, v); (y, w)]) (fun l m => k (MRef l) ρ m)))
  | None => lost m
  end.
Proof. intros. cbn [evaluate]. destruct (last_name p); reflexivity. Qed.
Lemma ev_rec3 : forall c p x a y b z d ρ m brk k, evaluate c (ERec p [(x, a); (y, b); (z, d)]) ρ m brk k =
  match last_name p with
  | Some s =>
    evaluate c a ρ m brk (fun v ρ m => evaluate c b ρ m brk (fun w ρ m => evaluate c d ρ m brk (fun u ρ m =>
      fresh m (OStruct (resolve c s) [(x, v); (y, w); (z, u)]) (fun l m => k (MRef l) ρ m))))
  | None => lost m
  end.
Proof. intros. cbn [evaluate]. destruct (last_name p); reflexivity. Qed.
Lemma ev_field : forall c e x ρ m brk k, evaluate c (EField e x) ρ m brk k =
  evaluate c e ρ m brk (fun v ρ m =>
    match v with
    | MRef l => match object m l with
                | Some (OStruct _ fs) => match lookup x fs with Some w => k w ρ m | None => lost m end
                | _ => lost m
                end
    | _ => lost m
    end).
Proof. reflexivity. Qed.
Lemma ev_idx : forall c e n ρ m brk k, evaluate c (EIdx e n) ρ m brk k =
  evaluate c e ρ m brk (fun v ρ m =>
    match v with
    | MRef l => match object m l with
                | Some (OPos _ vs) => match place vs n with Some w => k w ρ m | None => lost m end
                | _ => lost m
                end
    | _ => lost m
    end).
Proof. reflexivity. Qed.
Lemma ev_index : forall c e i ρ m brk k, evaluate c (EIndex e i) ρ m brk k =
  evaluate c e ρ m brk (fun v ρ m => evaluate c i ρ m brk (fun j ρ m =>
    match v, j with
    | MSlice l off n, MNum j => if j <? n then load m (MPtr l off (off + n) (off + j)) (fun w => k w ρ m) else (m, FFail PIndex)
    | MSlice l off n, MSpan a b => if (a <=? b) && (b <=? n) then k (MSlice l (off + a) (b - a)) ρ m else (m, FFail PIndex)
    | _, _ => lost m
    end)).
Proof. reflexivity. Qed.
Lemma ev_range : forall c a b ρ m brk k, evaluate c (ERange (Some a) (Some b) false) ρ m brk k =
  evaluate c a ρ m brk (fun v ρ m => evaluate c b ρ m brk (fun w ρ m =>
    match v, w with MNum a, MNum b => k (MSpan a b) ρ m | _, _ => lost m end)).
Proof. reflexivity. Qed.
Lemma ev_repeat : forall c e n ρ m brk k, evaluate c (ERepeat e n) ρ m brk k =
  evaluate c e ρ m brk (fun v ρ m => evaluate c n ρ m brk (fun w ρ m =>
    match w with
    | MNum n => fresh m (OBuf (repeat (cell_of c v) n)) (fun l m => k (MSlice l 0 n) ρ m)
    | _ => lost m
    end)).
Proof. reflexivity. Qed.
Lemma ev_not : forall c e ρ m brk k, evaluate c (ENot e) ρ m brk k =
  evaluate c e ρ m brk (fun v ρ m => match v with MBool b => k (MBool (negb b)) ρ m | _ => lost m end).
Proof. reflexivity. Qed.
Lemma ev_deref : forall c e ρ m brk k, evaluate c (EDeref e) ρ m brk k = evaluate c e ρ m brk k. Proof. reflexivity. Qed.
Lemma ev_ref : forall c e ρ m brk k, evaluate c (ERef e) ρ m brk k = evaluate c e ρ m brk k. Proof. reflexivity. Qed.
Lemma ev_raw : forall c e ρ m brk k, evaluate c (ERaw e) ρ m brk k = evaluate c e ρ m brk k. Proof. reflexivity. Qed.
Lemma ev_bin : forall c o a b ρ m brk k, evaluate c (EBin o a b) ρ m brk k =
  evaluate c a ρ m brk (fun v ρ m => evaluate c b ρ m brk (fun w ρ m => operator c o v w m (fun v => k v ρ m))).
Proof. reflexivity. Qed.
Lemma ev_call0 : forall c p ρ m brk k, evaluate c (ECall (EPath p) []) ρ m brk k = function c p [] m (fun v m => k v ρ m).
Proof. reflexivity. Qed.
Lemma ev_call1 : forall c p a ρ m brk k, evaluate c (ECall (EPath p) [a]) ρ m brk k =
  evaluate c a ρ m brk (fun v ρ m => function c p [v] m (fun v m => k v ρ m)).
Proof. reflexivity. Qed.
Lemma ev_call2 : forall c p a b ρ m brk k, evaluate c (ECall (EPath p) [a; b]) ρ m brk k =
  evaluate c a ρ m brk (fun v ρ m => evaluate c b ρ m brk (fun w ρ m => function c p [v; w] m (fun v m => k v ρ m))).
Proof. reflexivity. Qed.
Lemma ev_call3 : forall c p a b d ρ m brk k, evaluate c (ECall (EPath p) [a; b; d]) ρ m brk k =
  evaluate c a ρ m brk (fun v ρ m => evaluate c b ρ m brk (fun w ρ m => evaluate c d ρ m brk (fun u ρ m => function c p [v; w; u] m (fun v m => k v ρ m)))).
Proof. reflexivity. Qed.
Lemma ev_hole1 : forall c n p a ρ m brk k, evaluate c (ECall (EHole n p) [a]) ρ m brk k =
  evaluate c a ρ m brk (fun v ρ m => function c p [v] m (fun v m => k v ρ m)).
Proof. reflexivity. Qed.
Lemma ev_method0 : forall c e f ts ρ m brk k, evaluate c (EMethod e f ts []) ρ m brk k =
  evaluate c e ρ m brk (fun v ρ m => method c f ts v [] m (fun v m => k v ρ m)).
Proof. reflexivity. Qed.
Lemma ev_method1 : forall c e f ts a ρ m brk k, evaluate c (EMethod e f ts [a]) ρ m brk k =
  evaluate c e ρ m brk (fun v ρ m => evaluate c a ρ m brk (fun w ρ m => method c f ts v [w] m (fun v m => k v ρ m))).
Proof. reflexivity. Qed.
Lemma ev_try : forall c e ρ m brk k, evaluate c (ETry e) ρ m brk k =
  evaluate c e ρ m brk (fun v ρ m =>
    match v with
    | MCon x [w] => if name_eqb x id_Ok then k w ρ m else if name_eqb x id_Err then (m, FDone v) else lost m
    | _ => lost m
    end).
Proof. reflexivity. Qed.
Lemma ev_return : forall c e ρ m brk k, evaluate c (EReturn e) ρ m brk k = evaluate c e ρ m brk (fun v _ m => (m, FDone v)).
Proof. reflexivity. Qed.
Lemma ev_break : forall c ρ m brk k, evaluate c EBreak ρ m brk k = brk ρ m. Proof. reflexivity. Qed.
Lemma ev_if : forall c i a b ρ m brk k, evaluate c (EIf i a b) ρ m brk k =
  evaluate c i ρ m brk (fun v ρ m =>
    match v with
    | MBool t => if t then evaluate c a ρ m brk (fun v ρ' m => k v (restore ρ ρ') m) else evaluate c b ρ m brk (fun v ρ' m => k v (restore ρ ρ') m)
    | _ => lost m
    end).
Proof. reflexivity. Qed.
Lemma ev_match2 : forall c e p a q b ρ m brk k, evaluate c (EMatch e [(p, a); (q, b)]) ρ m brk k =
  evaluate c e ρ m brk (fun v ρ m =>
    match_with p v m ρ (fun ρ' => evaluate c a ρ' m brk (fun v ρ' m => k v (restore ρ ρ') m))
      (match_with q v m ρ (fun ρ' => evaluate c b ρ' m brk (fun v ρ' m => k v (restore ρ ρ') m)) (lost m))).
Proof. reflexivity. Qed.
(* one turn of a loop *)
Definition turn c (p : pat) (body : expr) (out : menv A -> mem A S -> mres A S) (w : mval A) ρ m (k' : menv A -> mem A S -> mres A S) : mres A S :=
  match_with p w m ρ (fun ρ' => evaluate c body ρ' m out (fun _ ρ'' m => k' (restore ρ ρ'') m)) (lost m).
Lemma ev_for : forall c p e body ρ m brk k, evaluate c (EFor p e body) ρ m brk k =
  evaluate c e ρ m brk (fun v ρ0 m =>
    let step := turn c p body (fun ρ m => k (MTup []) (restore ρ0 ρ) m) in
    match v with
    | MSpan a b => each step (numbers a b) ρ0 m (fun ρ m => k (MTup []) ρ m)
    | MSlice l off n => each step (pointers l off n) ρ0 m (fun ρ m => k (MTup []) ρ m)
    | MIter vs => each step vs ρ0 m (fun ρ m => k (MTup []) ρ m)
    | MRef l =>
      match object m l with
      | Some (OUser _) => drain c l step (k_fuel c) ρ0 m (fun ρ m => k (MTup []) ρ m)
      | _ =>
        match struct_name m v with
        | Some x =>
          match ref_into_iter x memory_impls with
          | Some g =>
            returned (k_call c x g [v] m) (fun w m =>
              match w with MIter vs => each step vs ρ0 m (fun ρ m => k (MTup []) ρ m) | _ => lost m end)
          | None => lost m
          end
        | None => lost m
        end
      end
    | _ => lost m
    end).
Proof. reflexivity. Qed.
Lemma ev_while : forall c i body ρ m brk k, evaluate c (EWhile i body) ρ m brk k =
  again (fun ρ m (k' : mval A -> menv A -> mem A S -> mres A S) => evaluate c i ρ m brk k')
    (fun ρ m (k' : menv A -> mem A S -> mres A S) => evaluate c body ρ m (fun ρ' m => k (MTup []) (restore ρ ρ') m) (fun _ ρ' m => k' (restore ρ ρ') m))
    (k_fuel c) ρ m (fun ρ m => k (MTup []) ρ m).
Proof. reflexivity. Qed.
Lemma ev_assert : forall c x a s ρ m brk k, evaluate c (EMacro x [a; EStr s]) ρ m brk k =
  if name_eqb x id_assert || (name_eqb x id_debug_assert && k_checks c) then
    evaluate c a ρ m brk (fun v ρ m =>
      match v with MBool b => if b then k (MTup []) ρ m else (m, FFail PAssert) | _ => lost m end)
  else if name_eqb x id_debug_assert then k (MTup []) ρ m
  else lost m.
Proof. reflexivity. Qed.
Lemma ev_vec : forall c z s x ts ρ m brk k, evaluate c (EMacro id_vec [EInt z s; EPath [(x, ts)]]) ρ m brk k =
  evaluate c (EPath [(x, ts)]) ρ m brk (fun w ρ m =>
    match w with
    | MNum n => fresh m (OBuf (repeat (cell_of c (MNum (Z.to_nat z))) n)) (fun l m => k (MSlice l 0 n) ρ m)
    | _ => lost m
    end).
Proof. reflexivity. Qed.
Lemma ev_write : forall c f s b ρ m brk k, evaluate c (EMacro id_write [f; EStr s; b]) ρ m brk k =
  match list_eq_dec Byte.byte_eq_dec s [x7b; x3a; x3f; x7d] with
  | left _ => evaluate c b ρ m brk (fun v ρ m => items m v (fun _ => k (MCon id_Debug [v]) ρ m))
  | right _ => lost m
  end.
Proof. reflexivity. Qed.
Lemma ev_assign : forall c o x ts e ρ m brk k, evaluate c (EAssign o (EPath [(x, ts)]) e) ρ m brk k =
  evaluate c e ρ m brk (fun v ρ m =>
    let store w := match set_var x w ρ with Some ρ => k (MTup []) ρ m | None => lost m end in
    match o with
    | None => store v
    | Some o => match lookup x ρ with Some w => operator c o w v m store | None => lost m end
    end).
Proof. reflexivity. Qed.
Lemma ev_assign_field : forall c o a x e ρ m brk k, evaluate c (EAssign o (EField a x) e) ρ m brk k =
  evaluate c e ρ m brk (fun v ρ m => evaluate c a ρ m brk (fun s ρ m =>
    match s with
    | MRef l =>
      match object m l with
      | Some (OStruct y fs) =>
        let store w := match set_field x w fs with Some fs => k (MTup []) ρ (put m l (OStruct y fs)) | None => lost m end in
        match o with
        | None => store v
        | Some o => match lookup x fs with Some w => operator c o w v m store | None => lost m end
        end
      | _ => lost m
      end
    | _ => lost m
    end)).
Proof. reflexivity. Qed.
Lemma ev_let : forall c p t e els rest ρ m brk k, evaluate c (ELet p t (Some e) els rest) ρ m brk k =
  evaluate c e ρ m brk (fun v ρ m =>
    match_with p v m ρ (fun ρ' => evaluate c rest ρ' m brk (fun v ρ' m => k v (restore ρ ρ') m))
      (match els with Some e => evaluate c e ρ m brk k | None => lost m end)).
Proof. reflexivity. Qed.
Lemma ev_seq : forall c a b ρ m brk k, evaluate c (ESeq a b) ρ m brk k = evaluate c a ρ m brk (fun _ ρ m => evaluate c b ρ m brk k).
Proof. reflexivity. Qed.
Lemma call_def : forall d c x f vs m, call_fn (Datatypes.S d) c x f vs m =
  match parameters (fn_params f) vs with
  | Some ρ => evaluate (with_self c x (call_fn d c)) (fn_body f) ρ m (fun _ m => lost m) (fun v _ m => (m, FDone v))
  | None => lost m
  end.
Proof. reflexivity. Qed.
End Rules.
Arguments turn {A S} _ _ _ _ _ _ _ _.

(* ---- facts *)

Section Facts.
Variables A S : Type.
Implicit Types (c : mctx A S) (m : mem A S).

Lemma count_length : forall X (l : list X), count l = length l.
Proof. induction l as [|x l IH]; cbn; [reflexivity|now rewrite IH]. Qed.
Lemma extend_app : forall X (l : list X) x, extend l x = l ++ [x].
Proof. induction l as [|y l IH]; intros; cbn; [reflexivity|now rewrite IH]. Qed.
Lemma place_nth : forall X (l : list X) n, place l n = nth_error l n.
Proof. induction l as [|y l IH]; destruct n; cbn; auto. Qed.
Lemma place_app : forall X (l l' : list X) n, place (l ++ l') (length l + n) = place l' n.
Proof. induction l as [|y l IH]; cbn; auto. Qed.
Lemma update_app : forall X (l l' : list X) n x, update (l ++ l') (length l + n) x = l ++ update l' n x.
Proof. induction l as [|y l IH]; intros; cbn; [reflexivity|now rewrite IH]. Qed.

Lemma place_end : forall X (l l' : list X) x, place (l ++ x :: l') (length l) = Some x.
Proof. induction l as [|y l IH]; cbn; auto. Qed.
Lemma update_end : forall X (l l' : list X) x y, update (l ++ x :: l') (length l) y = l ++ y :: l'.
Proof. induction l as [|z l IH]; intros; cbn; [reflexivity|now rewrite IH]. Qed.
Lemma count_app : forall X (l l' : list X), count (l ++ l') = length l + length l'.
Proof. intros. now rewrite count_length, app_length. Qed.
Lemma extend_behind : forall X (l l' : list X) x, extend (l ++ l') x = l ++ l' ++ [x].
Proof. intros. now rewrite extend_app, <- app_assoc. Qed.

Lemma fits_ok : forall n, (Z.of_nat n < 2 ^ 64)%Z -> fits_usize n = true.
Proof. intros. now apply Z.ltb_lt. Qed.
Lemma add_ok : forall c a b m k, (Z.of_nat (a + b) < 2 ^ 64)%Z -> add_usize c a b m k = k (a + b).
Proof. intros. unfold add_usize. now rewrite fits_ok. Qed.
Lemma sub_ok : forall c a b m k, b <= a -> sub_usize c a b m k = k (a - b).
Proof. intros. unfold sub_usize. now rewrite (proj2 (Nat.leb_le _ _)). Qed.
End Facts.

(* ---- tactics *)

(* one form of expression *)
Ltac expression t :=
  lazymatch t with
  | evaluate ?c ?e ?ρ ?m ?brk ?k =>
    lazymatch e with
    | EUnit => rewrite ev_unit
    | EInt _ _ => rewrite ev_int
    | EPath [_] => rewrite ev_name
    | EPath [_; _] => rewrite ev_name2
    | ETuple [] => rewrite ev_tuple0
    | ETuple [_; _] => rewrite ev_tuple2
    | ERec _ [_; _] => rewrite ev_rec2
    | ERec _ [_; _; _] => rewrite ev_rec3
    | EField _ _ => rewrite ev_field
    | EIdx _ _ => rewrite ev_idx
    | EIndex _ _ => rewrite ev_index
    | ERange _ _ _ => rewrite ev_range
    | ERepeat _ _ => rewrite ev_repeat
    | ENot _ => rewrite ev_not
    | EDeref _ => rewrite ev_deref
    | ERef _ => rewrite ev_ref
    | ERaw _ => rewrite ev_raw
    | EBin _ _ _ => rewrite ev_bin
    | ECall (EHole _ _) [_] => rewrite ev_hole1
    | ECall _ [] => rewrite ev_call0
    | ECall _ [_] => rewrite ev_call1
    | ECall _ [_; _] => rewrite ev_call2
    | ECall _ [_; _; _] => rewrite ev_call3
    | EMethod _ _ _ [] => rewrite ev_method0
    | EMethod _ _ _ [_] => rewrite ev_method1
    | ETry _ => rewrite ev_try
    | EReturn _ => rewrite ev_return
    | EBreak => rewrite ev_break
    | EIf _ _ _ => rewrite ev_if
    | EMatch _ [_; _] => rewrite ev_match2
    | EFor _ _ _ => rewrite ev_for
    | EWhile _ _ => rewrite ev_while
    | EMacro _ [_; EStr _] => rewrite ev_assert
    | EMacro _ [EInt _ _; EPath _] => rewrite ev_vec
    | EMacro _ [_; EStr _; _] => rewrite ev_write
    | EAssign _ (EPath [_]) _ => rewrite ev_assign
    | EAssign _ (EField _ _) _ => rewrite ev_assign_field
    | ELet _ _ _ _ _ => rewrite ev_let
    | ESeq _ _ => rewrite ev_seq
    end; cbv beta iota zeta
  end.

(* what is known of values and memory at this point *)
Ltac names t := eval lazy beta iota zeta delta [lookup last_name owner resolve name_eqb name_code N.eqb Pos.eqb k_self with_self orb] in t.
Ltac known :=
  match goal with
  | |- context [lookup ?x ?l] => let r := names (lookup x l) in lazymatch r with Some _ => change (lookup x l) with r | None => change (lookup x l) with r end
  | |- context [name_eqb ?x ?y] =>
    let r := names (name_eqb x y) in lazymatch r with true => change (name_eqb x y) with r | false => change (name_eqb x y) with r end
  | |- context [last_name ?p] => let r := names (last_name p) in lazymatch r with Some _ => change (last_name p) with r end
  | |- context [resolve ?c ?x] => let r := names (resolve c x) in change (resolve c x) with r
  | |- context [object ?m ?l] =>
    let r := eval lazy beta iota zeta delta [object place objs] in (object m l) in
    lazymatch r with Some _ => change (object m l) with r | None => change (object m l) with r end
  | |- context [place ?l ?n] =>
    let r := eval lazy beta iota zeta delta [place] in (place l n) in
    lazymatch r with Some _ => change (place l n) with r | None => change (place l n) with r end
  | |- context [fresh (Memory ?l ?d) ?o ?k] =>
    let n := eval cbn [count] in (count l) in let l' := eval cbn [extend] in (extend l o) in
    change (fresh (Memory l d) o k) with (k n (Memory l' d))
  | |- context [struct_name ?m ?v] => let r := eval lazy beta iota delta [struct_name] in (struct_name m v) in change (struct_name m v) with r
  | |- context [put (Memory ?l ?d) ?n ?o] => let l' := eval cbn [update] in (update l n o) in change (put (Memory l d) n o) with (Memory l' d)
  | |- context [count (?l ++ ?l')] => rewrite (@count_app _ l l'); cbn [length]
  | |- context [count ?l] => is_var l; rewrite (@count_length _ l)
  | |- context [extend (?l ++ ?l') ?x] => rewrite (@extend_behind _ l l' x); cbn [app]
  | |- context [extend ?l ?x] => is_var l; rewrite (@extend_app _ l x)
  | |- context [object (Memory ?l ?d) ?n] =>
    let r := eval cbn [place] in (place l n) in
    lazymatch r with
    | place (?l' ++ ?x :: ?l'') (length ?l') => change (object (Memory l d) n) with r; rewrite (@place_end _ l' l'' x)
    | place (?l' ++ ?l'') (length ?l' + ?n') => change (object (Memory l d) n) with r; rewrite (@place_app _ l' l'' n')
    end
  | |- context [update (?l ++ ?x :: ?l') (length ?l) ?y] => rewrite (@update_end _ l l' x y)
  | |- context [update (?l ++ ?l') (length ?l + ?n) ?y] => rewrite (@update_app _ l l' n y); cbn [update]
  | |- context [set_var ?x ?v ?ρ] =>
    let r := eval lazy beta iota zeta delta [set_var option_map name_eqb name_code N.eqb Pos.eqb] in (set_var x v ρ) in
    lazymatch r with Some _ => change (set_var x v ρ) with r end
  | |- context [set_field ?x ?v ?fs] =>
    let r := eval lazy beta iota zeta delta [set_field option_map name_eqb name_code N.eqb Pos.eqb] in (set_field x v fs) in
    lazymatch r with Some _ => change (set_field x v fs) with r end
  | |- context [restore ?ρ ?ρ'] =>
    let r := eval lazy beta iota zeta delta [restore excess drop count] in (restore ρ ρ') in
    lazymatch r with [] => change (restore ρ ρ') with r | _ :: _ => change (restore ρ ρ') with r end
  | |- context [parameters ?ps ?vs] =>
    let r := eval lazy beta iota zeta delta [parameters option_map fn_params] in (parameters ps vs) in
    lazymatch r with Some _ => change (parameters ps vs) with r end
  | |- context [Z.to_nat 0] => change (Z.to_nat 0) with 0
  | |- context [Z.to_nat 1] => change (Z.to_nat 1) with 1
  | |- context [cell_of (with_self ?c ?x ?f) ?v] =>
    let r := eval lazy beta iota zeta delta [cell_of] in (cell_of (with_self c x f) v) in change (cell_of (with_self c x f) v) with r
  | |- context [k_self (with_self ?c ?x ?f)] => change (k_self (with_self c x f)) with x
  | |- context [k_call (with_self ?c ?x ?f)] => change (k_call (with_self c x f)) with f
  | |- context [k_len (with_self ?c ?x ?f)] => change (k_len (with_self c x f)) with (k_len c)
  | |- context [k_checks (with_self ?c ?x ?f)] => change (k_checks (with_self c x f)) with (k_checks c)
  | |- context [k_fuel (with_self ?c ?x ?f)] => change (k_fuel (with_self c x f)) with (k_fuel c)
  | |- context [k_clone (with_self ?c ?x ?f)] => change (k_clone (with_self c x f)) with (k_clone c)
  | |- context [k_eq (with_self ?c ?x ?f)] => change (k_eq (with_self c x f)) with (k_eq c)
  | |- context [k_cmp (with_self ?c ?x ?f)] => change (k_cmp (with_self c x f)) with (k_cmp c)
  | |- context [k_partial (with_self ?c ?x ?f)] => change (k_partial (with_self c x f)) with (k_partial c)
  | |- context [k_hash (with_self ?c ?x ?f)] => change (k_hash (with_self c x f)) with (k_hash c)
  | |- context [k_next (with_self ?c ?x ?f)] => change (k_next (with_self c x f)) with (k_next c)
  | |- context [k_lit (with_self ?c ?x ?f)] => change (k_lit (with_self c x f)) with (k_lit c)
  | |- context [k_text (with_self ?c ?x ?f)] => change (k_text (with_self c x f)) with (k_text c)
  | |- context [k_char (with_self ?c ?x ?f)] => change (k_char (with_self c x f)) with (k_char c)
  | |- context [k_text_hash (with_self ?c ?x ?f)] => change (k_text_hash (with_self c x f)) with (k_text_hash c)
  | |- context [k_start (with_self ?c ?x ?f)] => change (k_start (with_self c x f)) with (k_start c)
  | |- context [k_granted (with_self ?c ?x ?f)] => change (k_granted (with_self c x f)) with (k_granted c)
  | |- context [no_size (with_self ?c ?x ?f) ?n] => change (no_size (with_self c x f) n) with (no_size c n)
  | |- context [k_max (with_self ?c ?x ?f)] => change (k_max (with_self c x f)) with (k_max c)
  | |- context [k_encode (with_self ?c ?x ?f)] => change (k_encode (with_self c x f)) with (k_encode c)
  | |- context [k_decode (with_self ?c ?x ?f)] => change (k_decode (with_self c x f)) with (k_decode c)
  | H : object ?m ?l = _ |- context [object ?m ?l] => rewrite H
  end; cbv beta iota zeta.

(* unfolds an operation, and leaves alone what comes after it *)
Ltac operation t :=
  lazymatch t with
  | match_with ?p ?v ?m ?ρ ?ks ?kf =>
    let T := type of ks in let T' := type of kf in
    let r := eval lazy beta iota zeta delta [match_with last_name name_eqb name_code N.eqb Pos.eqb lookup] in (fun (K : T) (L : T') => match_with p v m ρ K L) in
    change (match_with p v m ρ ks kf) with (r ks kf)
  | method ?c ?f ?ts ?v ?vs ?m ?k =>
    let T := type of k in
    let r := eval lazy beta iota zeta delta [method deref_for orb name_eqb name_code N.eqb Pos.eqb] in (fun K : T => method c f ts v vs m K) in
    change (method c f ts v vs m k) with (r k)
  | core_method ?c ?f ?ts ?v ?vs ?m ?k =>
    let T := type of k in
    let r := eval lazy beta iota zeta delta [core_method is_raw orb name_eqb name_code N.eqb Pos.eqb] in (fun K : T => core_method c f ts v vs m K) in
    change (core_method c f ts v vs m k) with (r k)
  | function ?c ?p ?vs ?m ?k =>
    let T := type of k in
    let r := eval lazy beta iota zeta delta [function last_name owner orb name_eqb name_code N.eqb Pos.eqb] in (fun K : T => function c p vs m K) in
    change (function c p vs m k) with (r k)
  | core_call ?c ?q ?f ?vs ?m ?k =>
    let T := type of k in
    let r := eval lazy beta iota zeta delta [core_call orb name_eqb name_code N.eqb Pos.eqb] in (fun K : T => core_call c q f vs m K) in
    change (core_call c q f vs m k) with (r k)
  | operator ?c ?o ?a ?b ?m ?k =>
    let T := type of k in
    let r := eval lazy beta iota zeta delta [operator arithmetic] in (fun K : T => operator c o a b m K) in
    change (operator c o a b m k) with (r k)
  | pick ?m ?l ?off ?n ?i ?b ?k =>
    let T := type of k in
    let r := eval lazy beta iota zeta delta [pick] in (fun K : T => pick m l off n i b K) in
    change (pick m l off n i b k) with (r k)
  | load ?m ?v ?k =>
    let T := type of k in
    let r := eval lazy beta iota zeta delta [load cells] in (fun K : T => load m v K) in
    change (load m v k) with (r k)
  | save ?m ?v ?x ?k =>
    let T := type of k in
    let r := eval lazy beta iota zeta delta [save cells] in (fun K : T => save m v x K) in
    change (save m v x k) with (r k)
  | items ?m ?v ?k =>
    let T := type of k in
    let r := eval lazy beta iota zeta delta [items] in (fun K : T => items m v K) in
    change (items m v k) with (r k)
  | as_items ?m ?l ?off ?n ?k =>
    let T := type of k in
    let r := eval lazy beta iota zeta delta [as_items cells] in (fun K : T => as_items m l off n K) in
    change (as_items m l off n k) with (r k)
  | copy_cells ?m ?a ?b ?n ?k =>
    let T := type of k in
    let r := eval lazy beta iota zeta delta [copy_cells cells] in (fun K : T => copy_cells m a b n K) in
    change (copy_cells m a b n k) with (r k)
  | overwrite ?m ?l ?off ?xs ?k =>
    let T := type of k in
    let r := eval lazy beta iota zeta delta [overwrite cells] in (fun K : T => overwrite m l off xs K) in
    change (overwrite m l off xs k) with (r k)
  | encode_to ?c ?v ?l ?m ?k =>
    let T := type of k in
    let r := eval lazy beta iota zeta delta [encode_to] in (fun K : T => encode_to c v l m K) in
    change (encode_to c v l m k) with (r k)
  | decode_from ?c ?l ?m ?k =>
    let T := type of k in
    let r := eval lazy beta iota zeta delta [decode_from] in (fun K : T => decode_from c l m K) in
    change (decode_from c l m k) with (r k)
  | stream ?m ?l ?k =>
    let T := type of k in
    let r := eval lazy beta iota zeta delta [stream] in (fun K : T => stream m l K) in
    change (stream m l k) with (r k)
  | compare ?c ?v ?w ?m ?k =>
    let T := type of k in
    let r := eval lazy beta iota zeta delta [compare] in (fun K : T => compare c v w m K) in
    change (compare c v w m k) with (r k)
  | compare_partially ?c ?v ?w ?m ?k =>
    let T := type of k in
    let r := eval lazy beta iota zeta delta [compare_partially] in (fun K : T => compare_partially c v w m K) in
    change (compare_partially c v w m k) with (r k)
  | hash_on ?c ?hs ?v ?m ?k =>
    let T := type of k in
    let r := eval lazy beta iota zeta delta [hash_on] in (fun K : T => hash_on c hs v m K) in
    change (hash_on c hs v m k) with (r k)
  | read_whole ?m ?b ?l ?off ?n ?k =>
    let T := type of k in
    let r := eval lazy beta iota zeta delta [read_whole cells] in (fun K : T => read_whole m b l off n K) in
    change (read_whole m b l off n k) with (r k)
  | as_text ?c ?v ?m ?k =>
    let T := type of k in
    let r := eval lazy beta iota zeta delta [as_text] in (fun K : T => as_text c v m K) in
    change (as_text c v m k) with (r k)
  | returned (?m, FDone ?v) ?k => change (returned (m, FDone v) k) with (k v m)
  end; cbv beta iota zeta.
(* the function that a name stands for *)
Ltac find_fn f fs :=
  lazymatch fs with
  | ?g :: ?fs' => let b := eval vm_compute in (name_eqb (fn_name g) f) in lazymatch b with true => constr:(Some g) | false => find_fn f fs' end
  | [] => constr:(@None fn)
  end.
Ltac find_in x f is :=
  lazymatch is with
  | ?i :: ?is' =>
    let i' := eval red in i in
    lazymatch i' with
    | Impl _ _ _ _ ?t _ _ ?fs =>
      let b := eval vm_compute in (match self_name t with Some y => name_eqb x y | None => false end) in
      lazymatch b with
      | true => let g := find_fn f fs in lazymatch g with Some _ => g | None => find_in x f is' end
      | false => find_in x f is'
      end
    end
  | [] => constr:(@None fn)
  end.
Ltac text :=
  match goal with
  | |- context [fn_of ?x ?f memory_impls] =>
    let is := eval cbv delta [memory_impls src_output_impls src_input_impls src_slot_impls src_sizedslice_impls src_sizediter_impls src_sizedstr_impls] in memory_impls in
    let is := eval cbv beta iota zeta delta [app] in is in
    let g := find_in x f is in change (fn_of x f memory_impls) with g
  end; cbv beta iota zeta.
Ltac enter :=
  match goal with
  | |- context [call_fn (Datatypes.S ?d) ?c ?x ?f ?vs ?m] =>
    rewrite call_def;
    let ps := eval lazy beta iota delta [f fn_params] in (fn_params f) in change (fn_params f) with ps;
    let e := eval lazy beta iota delta [f fn_body] in (fn_body f) in change (fn_body f) with e
  end; cbv beta iota zeta.
(* what is computed next *)
Ltac focus t :=
  lazymatch t with
  | returned (?m, FDone ?v) ?k => t
  | returned ?r _ => focus r
  | match ?x with _ => _ end => focus x
  | _ => t
  end.
Ltac step := first [known | text | lazymatch goal with |- ?t = _ => let u := focus t in first [expression u | operation u] | |- ends ?t _ _ => let u := focus t in first [expression u | operation u] end | enter | progress cbn [andb orb]].
