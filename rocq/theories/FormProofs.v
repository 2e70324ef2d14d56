(* Types of one form are written and read alike. *)
From Coq Require Import Lia ZifyBool ZifyNat ZifyN.
From Verif Require Import Base BaseFacts Streams StreamFacts Utf8 Types TypesFacts Traits Encode Decode Spec SpecForm AcceptFacts.
Set Implicit Arguments.

Lemma ds_length vs : forall prev ds, discriminants_from prev vs = Some ds -> length ds = length vs.
Proof.
  induction vs as [|v vs IH]; intros prev ds H; cbn [discriminants_from] in H; [injection H as <-; reflexivity|].
  destruct (next_discriminant prev v) as [d|]; [|discriminate]. destruct (discriminants_from (Some d) vs) as [l|] eqn:E; [|discriminate].
  cbn [option_map] in H. injection H as <-. cbn [length]. f_equal. exact (IH _ _ E).
Qed.

(* the entry that a number selects *)
Fixpoint assoc {A} (d : Z) (l : list (Z * A)) : option A :=
  match l with
  | [] => None
  | (d', x) :: l' => if (d =? d')%Z then Some x else assoc d l'
  end.
Lemma assoc_find {A} (ds : list Z) d : forall (xs : list A) k, length ds = length xs ->
  match find_disc d ds k with
  | Some i => exists x, k <= i /\ nth_error xs (i - k) = Some x /\ assoc d (combine ds xs) = Some x
  | None => assoc d (combine ds xs) = None
  end.
Proof.
  induction ds as [|d' ds IH]; intros [|x xs] k Hl; cbn [length] in Hl; try discriminate; cbn [find_disc combine assoc]; [reflexivity|].
  destruct (d =? d')%Z; [exists x; rewrite Nat.sub_diag; repeat split; lia|].
  injection Hl as Hl. specialize (IH xs (S k) Hl). destruct (find_disc d ds (S k)) as [i|]; [|exact IH].
  destruct IH as (y & H1 & H2 & H3). exists y. split; [lia|]. split; [|exact H3].
  replace (i - k) with (S (i - S k)) by lia. exact H2.
Qed.
Lemma assoc_nth {A} ds : NoDup ds -> forall i d (xs : list A) x, nth_error ds i = Some d -> nth_error xs i = Some x ->
  assoc d (combine ds xs) = Some x.
Proof.
  induction 1 as [|d' ds Hn _ IH]; intros [|i] d [|y xs] x Hd Hx; cbn [nth_error] in *; try discriminate; cbn [combine assoc].
  - injection Hd as <-. injection Hx as <-. rewrite Z.eqb_refl. reflexivity.
  - destruct (Z.eqb_spec d d') as [->|]; [|eapply IH; eassumption]. apply nth_error_In in Hd. contradiction.
Qed.
Lemma assoc_map {A B} (f : A -> B) d l : assoc d (map (fun x => (fst x, f (snd x))) l) = option_map f (assoc d l).
Proof. induction l as [|[d' x] l IH]; [reflexivity|]. cbn [map assoc fst snd]. destruct (d =? d')%Z; [reflexivity | exact IH]. Qed.

(* ================ reading *)

Fixpoint pieces (fs : list (D piece)) : D (list piece) :=
  match fs with
  | [] => dok []
  | f :: fs' => dbind f (fun p => dmap (cons p) (pieces fs'))
  end.
Fixpoint times {A} (f : D A) (n : nat) : D (list A) :=
  match n with
  | O => dok []
  | S n' => dbind f (fun x => dmap (cons x) (times f n'))
  end.

Fixpoint rform (f : form) : D piece :=
  match f with
  | FLeaf t => dmap PLeaf (decode t)
  | FSign a b => dbind dec_bool (fun s => dmap (PSign s) (if s then pieces (map rform b) else pieces (map rform a)))
  | FMany fs => dbind dec_usize (fun len => dmap PMany (times (pieces (map rform fs)) (Z.to_nat len)))
  | FText => dmap (fun v => match v with VStr bs => PText bs | _ => PStop end) dec_string
  | FNullFree => dmap (fun v => match v with VStr bs => PText bs | _ => PStop end) dec_cstring
  | FChoice r vs =>
    dbind (dec_int r) (fun d =>
    match assoc d (map (fun x => (fst x, map rform (snd x))) vs) with
    | Some fs => dmap (PChoice d) (pieces fs)
    | None => derror (DUnassigned r d)
    end)
  end.

Definition Agrees {A B} (c : A -> B) (m : D A) (n : D B) : Prop := forall i,
  match m i, n i with
  | (i1, Ok a), (i2, Ok b) => i1 = i2 /\ b = c a
  | (i1, Err _), (i2, Err _) => i1 = i2
  | (i1, Panic p), (i2, Panic q) => i1 = i2 /\ p = q
  | _, _ => False
  end.

Lemma ag_ext {A B} (c : A -> B) m n n' : Agrees c m n -> (forall i, n' i = n i) -> Agrees c m n'.
Proof. intros H E i. specialize (H i). rewrite E. exact H. Qed.
Lemma ag_ok {A B} (c : A -> B) a b : b = c a -> Agrees c (dok a) (dok b).
Proof. intros H i. split; [reflexivity | exact H]. Qed.

Lemma ag_bind {A B A' B'} (c : A -> B) (c' : A' -> B') m n k k' : Agrees c m n -> (forall a, Agrees c' (k a) (k' (c a))) ->
  Agrees c' (dbind m k) (dbind n k').
Proof.
  intros H Hk i. specialize (H i). unfold dbind. destruct (m i) as [i1 [a|e|p]], (n i) as [i2 [b|e'|q]]; try contradiction; try exact H.
  destruct H as [-> ->]. apply Hk.
Qed.
Lemma ag_same {A B B'} (c : A -> B) (m : D B') k k' : (forall a, Agrees c (k a) (k' a)) -> Agrees c (dbind m k) (dbind m k').
Proof. intros H i. unfold dbind. destruct (m i) as [i1 [a|e|p]]; [apply H | reflexivity | split; reflexivity]. Qed.
Lemma ag_map {A B A' B'} (c : A -> B) (c' : A' -> B') f g m n : Agrees c m n -> (forall a, c' (f a) = g (c a)) ->
  Agrees c' (dmap f m) (dmap g n).
Proof. intros H E. unfold dmap. eapply ag_bind; [exact H|]. intros a. apply ag_ok. symmetry. apply E. Qed.
Lemma ag_map_l {A B A'} (c : A -> B) (c' : A' -> B) f m n : Agrees c m n -> (forall a, c' (f a) = c a) -> Agrees c' (dmap f m) n.
Proof.
  intros H E i. specialize (H i). unfold dmap, dbind. destruct (m i) as [i1 [a|e|p]], (n i) as [i2 [b|e'|q]]; try contradiction; try exact H.
  cbn. rewrite E. exact H.
Qed.
Lemma ag_err {A B} (c : A -> B) f m n : Agrees c m n -> Agrees c (dmap_err f m) n.
Proof. intros H i. specialize (H i). unfold dmap_err. destruct (m i) as [i1 [a|e|p]], (n i) as [i2 [b|e'|q]]; exact H. Qed.
Lemma ag_leaf {A} (m : D A) (f : A -> piece) : Agrees f m (dmap f m).
Proof. intros i. unfold dmap, dbind. destruct (m i) as [i1 [a|e|p]]; cbn; auto. Qed.

Lemma bind_assoc {A B C} (m : D A) (k : A -> D B) (l : B -> D C) i : dbind (dbind m k) l i = dbind m (fun a => dbind (k a) l) i.
Proof. unfold dbind. destruct (m i) as [i1 [a|e|p]]; reflexivity. Qed.

(* one piece *)
Lemma pieces_one m i : pieces [m] i = dmap (fun p => [p]) m i.
Proof. cbn [pieces]. unfold dmap, dbind. destruct (m i) as [i1 [a|e|p]]; reflexivity. Qed.
Lemma ag_one {A} (c : A -> list piece) (f : A -> piece) m n : Agrees f m n -> (forall a, c a = [f a]) -> Agrees c m (pieces [n]).
Proof.
  intros H E. eapply ag_ext; [|apply pieces_one]. intros i. specialize (H i). unfold dmap, dbind.
  destruct (m i) as [i1 [a|e|p]], (n i) as [i2 [b|e'|q]]; try contradiction; try exact H. destruct H as [-> ->]. cbn. rewrite E. auto.
Qed.
(* one piece which begins with something that both read *)
Lemma ag_pick {A B} (c : A -> list piece) (m : D B) k k' : (forall b, Agrees c (k b) (dmap (fun p => [p]) (k' b))) ->
  Agrees c (dbind m k) (pieces [dbind m k']).
Proof.
  intros H. eapply ag_ext; [|intros i; rewrite pieces_one; apply bind_assoc]. apply ag_same. exact H.
Qed.

Lemma pieces_app a b i : pieces (a ++ b) i = dbind (pieces a) (fun x => dmap (app x) (pieces b)) i.
Proof.
  revert i. induction a as [|f a IH]; intros i; cbn [app pieces].
  - unfold dbind, dok, dmap, dbind, dok. destruct (pieces b i) as [i1 [x|e|p]]; reflexivity.
  - unfold dbind at 1 2 3. destruct (f i) as [i1 [x|e|p]]; try reflexivity. unfold dmap at 1, dbind at 1. rewrite IH.
    unfold dmap, dbind, dok. destruct (pieces a i1) as [i2 [y|e|p]]; try reflexivity. destruct (pieces b i2) as [i3 [z|e|p]]; reflexivity.
Qed.
Lemma ag_two {A A' B} (c : A -> list piece) (c' : A' -> list piece) (d : B -> list piece) m m' h a b :
  Agrees c m (pieces a) -> Agrees c' m' (pieces b) -> (forall x y, d (h x y) = c x ++ c' y) ->
  Agrees d (dbind m (fun x => dmap (h x) m')) (pieces (a ++ b)).
Proof.
  intros Ha Hb E. eapply ag_ext; [|intros i; apply pieces_app]. eapply ag_bind; [exact Ha|]. intros x. eapply ag_map; [exact Hb|]. intros y. apply E.
Qed.

Lemma ag_fields conv ts : forall fs : list (D val), Forall2 (fun t f => Agrees (content true t) f (pieces (map rform (forms true t)))) ts fs ->
  Agrees (each (map (content true) ts)) (dec_fields conv fs) (pieces (map rform (flat_map (forms true) ts))).
Proof.
  induction ts as [|t ts IH]; intros fs H; inversion H; subst; cbn [flat_map map dec_fields]; [apply ag_ok; reflexivity|].
  rewrite map_app. eapply ag_two; [apply ag_err; eassumption | apply IH; assumption | reflexivity].
Qed.
Lemma ag_repeat (c : val -> list piece) f g n : Agrees c f (pieces g) -> forall k, Agrees (flat_map c) (dec_items f n k) (pieces (concat (repeat g n))).
Proof.
  intros H. induction n as [|n IH]; intros k; cbn [dec_items repeat concat]; [apply ag_ok; reflexivity|].
  eapply ag_two; [apply ag_err; eassumption | apply IH | reflexivity].
Qed.
Lemma ag_items {A B} (c : A -> B) f g n : Agrees c f g -> forall k, Agrees (map c) (dec_items f n k) (times g n).
Proof.
  intros H. induction n as [|n IH]; intros k; cbn [dec_items times]; [apply ag_ok; reflexivity|].
  eapply ag_bind; [apply ag_err, H|]. intros x. eapply ag_map; [apply IH | reflexivity].
Qed.
Lemma ag_vec c f fs (d : val -> list piece) : Agrees c f (pieces (map rform fs)) -> (forall vs, d (VSeq vs) = [PMany (map c vs)]) ->
  Agrees d (dec_vec f) (pieces (map rform [FMany fs])).
Proof.
  intros H E. cbn [map rform]. apply ag_pick. intros len. 
  eapply ag_ext; [|intros i; unfold dmap; apply bind_assoc]. eapply ag_bind; [apply ag_items, H|].
  intros vs. cbn beta. apply ag_ok. symmetry. apply E.
Qed.

Lemma map_repeat {A B} (f : A -> B) x n : map f (repeat x n) = repeat (f x) n.
Proof. induction n; cbn; congruence. Qed.
Lemma forall2_map_r {A B} (R : A -> B -> Prop) (f : A -> B) l : Forall (fun x => R x (f x)) l -> Forall2 R l (map f l).
Proof. induction 1; constructor; assumption. Qed.

Lemma text_ag m (d : val -> list piece) : (forall i i' v, m i = (i', Ok v) -> exists bs, v = VStr bs) -> (forall bs, d (VStr bs) = [PText bs]) ->
  Agrees d m (pieces [dmap (fun v => match v with VStr bs => PText bs | _ => PStop end) m]).
Proof.
  intros Hm E i. rewrite pieces_one. unfold dmap, dbind. destruct (m i) as [i1 [v|e|p]] eqn:Em; cbn; auto.
  destruct (Hm _ _ _ Em) as (bs & ->). rewrite E. auto.
Qed.
Lemma string_str i i' v : dec_string i = (i', Ok v) -> exists bs, v = VStr bs.
Proof.
  unfold dec_string, dmap, dbind, dmap_err, dlift, dok. destruct (dec_usize i) as [i1 [n|e|p]]; try discriminate.
  destruct (dread _ i1) as [i2 [bs|e|p]]; try discriminate. destruct (check_utf8 bs); try discriminate. intros H. injection H as _ <-. eauto.
Qed.
Lemma cstring_str i i' v : dec_cstring i = (i', Ok v) -> exists bs, v = VStr bs.
Proof.
  unfold dec_cstring, dbind, derror, dok. destruct (dec_usize i) as [i1 [n|e|p]]; try discriminate.
  destruct (dread _ i1) as [i2 [bs|e|p]]; try discriminate. destruct (find_null 0 bs); try discriminate. intros H. injection H as _ <-. eauto.
Qed.

Lemma ag_leaf_one (m : D val) : Agrees (fun v => [PLeaf v]) m (pieces [dmap PLeaf m]).
Proof. eapply ag_one; [apply ag_leaf | reflexivity]. Qed.
Lemma ag_weak {A B} (c d : A -> B) m n : (forall i i' a, m i = (i', Ok a) -> c a = d a) -> Agrees c m n -> Agrees d m n.
Proof. intros E H i. specialize (H i). destruct (m i) as [i1 [a|e|p]] eqn:Em; [|exact H|exact H]. destruct (n i) as [i2 [b|e|p]]; try exact H. rewrite <- (E _ _ _ Em). exact H. Qed.

Lemma ag_sign {A} (c : A -> list piece) a b k : Agrees c (k true) (dmap (fun p => [p]) (dmap (PSign true) (pieces (map rform b)))) ->
  Agrees c (k false) (dmap (fun p => [p]) (dmap (PSign false) (pieces (map rform a)))) ->
  Agrees c (dbind dec_bool k) (pieces [rform (FSign a b)]).
Proof. intros Ht Hf. cbn [rform]. apply ag_pick. intros []; assumption. Qed.
Lemma ag_maps {A B} (c : A -> list piece) (c' : B -> list piece) (h : A -> B) f m n : Agrees c m n -> (forall a, c' (h a) = [f (c a)]) ->
  Agrees c' (dmap h m) (dmap (fun p => [p]) (dmap f n)).
Proof.
  intros H E i. specialize (H i). unfold dmap, dbind, dok.
  destruct (m i) as [i1 [a|e|p]], (n i) as [i2 [b|e'|q]]; try contradiction; try exact H. destruct H as [-> ->]. cbn. rewrite E. auto.
Qed.
Lemma ag_none {A} (c : A -> list piece) a f : c a = [f []] -> Agrees c (dok a) (dmap (fun p => [p]) (dmap f (pieces (map rform [])))).
Proof. intros E i. cbn. rewrite E. auto. Qed.


Lemma sock4_ag k (c : val -> list piece) : (forall o p, c (k o p) = [PLeaf (VIp4 o); PLeaf (VInt p)]) ->
  Agrees c (dec_sock4 k) (pieces (map rform [FLeaf TIpv4; FLeaf (TInt U16)])).
Proof.
  intros E i. cbn [map pieces rform decode dec_int isigned iwidth]. unfold dec_sock4, dmap, dbind, dok.
  destruct (dec_ip4 i) as [i1 [o|e|p]]; auto. destruct (dec_unsigned 2 i1) as [i2 [z|e|p]]; auto.
Qed.
Lemma sock6_ag k (c : val -> list piece) :
  (forall o p f s, c (k o p f s) = [PLeaf (VIp6 o); PLeaf (VInt p); PLeaf (VInt f); PLeaf (VInt s)]) ->
  Agrees c (dec_sock6 k) (pieces (map rform [FLeaf TIpv6; FLeaf (TInt U16); FLeaf (TInt U32); FLeaf (TInt U32)])).
Proof.
  intros E i. cbn [map pieces rform decode dec_int isigned iwidth]. unfold dec_sock6, dmap, dbind, dok.
  destruct (dec_ip6 i) as [i1 [o|e|p]]; auto. destruct (dec_unsigned 2 i1) as [i2 [z|e|p]]; auto.
  destruct (dec_unsigned 4 i2) as [i3 [f|e|p]]; auto. destruct (dec_unsigned 4 i3) as [i4 [s|e|p]]; auto.
Qed.
Lemma ag_choice {A} (c : A -> list piece) r vs k :
  (forall d, Agrees c (k d) (dmap (fun p => [p])
     match assoc d (map (fun x => (fst x, map rform (snd x))) vs) with Some fs => dmap (PChoice d) (pieces fs) | None => derror (DUnassigned r d) end)) ->
  Agrees c (dbind (dec_int r) k) (pieces [rform (FChoice r vs)]).
Proof. intros H. cbn [rform]. apply ag_pick. exact H. Qed.
Lemma ag_wrong {A} (c : A -> list piece) e e' : Agrees c (derror e) (dmap (fun p => [p]) (derror e')).
Proof. intros i. reflexivity. Qed.

Definition Reads (t : ty) : Prop := Agrees (content true t) (decode t) (pieces (map rform (forms true t))).
Lemma reads_all t : Reads t /\ match t with TSlice u => Reads u | _ => True end.
Proof.
  induction t using ty_ind_strong; (split; [|try exact I; try apply IHt]); unfold Reads in *; cbn [decode forms map].
  all: repeat match goal with H : _ /\ _ |- _ => destruct H end.
  all: try (apply ag_ok; reflexivity).
  all: try (eapply ag_map_l; [eassumption | reflexivity]).
  all: try (eapply ag_weak; [|apply ag_leaf_one]; reflexivity).
  all: try (eapply ag_weak; [|apply ag_leaf_one]; intros ? ? v _; destruct v; reflexivity).
  - (* bool *) apply ag_sign; apply ag_none; reflexivity.
  - (* Option *) apply ag_sign; [eapply ag_maps; [eassumption | reflexivity] | apply ag_none; reflexivity].
  - apply ag_sign; (eapply ag_maps; [apply ag_err; eassumption | reflexivity]).
  - eapply ag_map_l; [|reflexivity]. apply ag_fields, forall2_map_r. eapply Forall_impl; [|eassumption]. cbn beta. intros ? [? _]. assumption.
  - eapply ag_map_l; [|reflexivity]. rewrite concat_map, map_repeat. apply ag_repeat. assumption.
  - eapply (ag_vec (c := content true t)); [eassumption | reflexivity].
  - eapply (ag_vec (c := content true t)); [eassumption | reflexivity].
  - apply text_ag; [exact string_str | reflexivity].
  - apply text_ag; [exact cstring_str | reflexivity].
  - (* Cow *) destruct t; try (eapply ag_map_l; [eassumption | reflexivity]).
    + eapply (ag_map_l (c := content true (TVec t))); [eapply (ag_vec (c := content true t)); [eassumption | reflexivity]|]. intros []; reflexivity.
    + eapply (ag_map_l (c := content true TString)); [apply text_ag; [exact string_str | reflexivity]|]. intros []; reflexivity.
    + eapply (ag_map_l (c := content true TCString)); [apply text_ag; [exact cstring_str | reflexivity]|]. intros []; reflexivity.
  - (* IpAddr *) unfold dec_ip_addr, dec_sock_addr, dec_bound. change dec_u8 with (dec_int U8). apply ag_choice. intros d. cbn [map fst snd assoc]. destruct (Z.eqb_spec d 4) as [->|_]; [|destruct (Z.eqb_spec d 6) as [->|_]; [|apply ag_wrong]].
    + eapply (ag_maps (c := fun o => [PLeaf (VIp4 o)])); [|reflexivity]. eapply ag_one; [|reflexivity]. intros i. cbn [rform decode]. unfold dmap, dbind, dok.
      destruct (dec_ip4 i) as [i1 [o|e|p]]; auto.
    + eapply (ag_maps (c := fun o => [PLeaf (VIp6 o)])); [|reflexivity]. eapply ag_one; [|reflexivity]. intros i. cbn [rform decode]. unfold dmap, dbind, dok.
      destruct (dec_ip6 i) as [i1 [o|e|p]]; auto.
  - apply sock4_ag. reflexivity.
  - apply sock6_ag. reflexivity.
  - unfold dec_ip_addr, dec_sock_addr, dec_bound. change dec_u8 with (dec_int U8). apply ag_choice. intros d. cbn [map fst snd assoc]. destruct (Z.eqb_spec d 4) as [->|_]; [|destruct (Z.eqb_spec d 6) as [->|_]; [|apply ag_wrong]].
    + intros i. cbn [map fst snd pieces rform decode dec_int isigned iwidth]. unfold dec_sock4, dmap, dbind, dok.
      destruct (dec_ip4 i) as [i1 [o|e|p]]; auto. destruct (dec_unsigned 2 i1) as [i2 [z|e|p]]; auto.
    + intros i. cbn [map fst snd pieces rform decode dec_int isigned iwidth]. unfold dec_sock6, dmap, dbind, dok.
      destruct (dec_ip6 i) as [i1 [o|e|p]]; auto. destruct (dec_unsigned 2 i1) as [i2 [z|e|p]]; auto.
      destruct (dec_unsigned 4 i2) as [i3 [f|e|p]]; auto. destruct (dec_unsigned 4 i3) as [i4 [s|e|p]]; auto.
  - rewrite map_app. eapply ag_two; [eassumption | eassumption | reflexivity].
  - rewrite map_app. eapply ag_two; [eassumption | eassumption | reflexivity].
  - (* Bound *) unfold dec_ip_addr, dec_sock_addr, dec_bound. change dec_u8 with (dec_int U8). apply ag_choice. intros d. cbn [map fst snd assoc]. destruct (Z.eqb_spec d 0) as [->|_];
      [eapply ag_maps; [apply ag_err; eassumption | reflexivity]|]. destruct (Z.eqb_spec d 1) as [->|_];
      [eapply ag_maps; [apply ag_err; eassumption | reflexivity]|]. destruct (Z.eqb_spec d 2) as [->|_]; [apply ag_none; reflexivity | apply ag_wrong].
  - eapply ag_map_l; [|reflexivity]. apply ag_fields, forall2_map_r. eapply Forall_impl; [|eassumption]. cbn beta. intros ? [? _]. assumption.
  - (* enum *) destruct (discriminants (map fst vs)) as [ds|] eqn:Ed; [|cbn [map rform pieces decode]; rewrite Ed; intros i; split; reflexivity].
    pose proof (ds_length _ _ Ed) as Hl. rewrite map_length in Hl. apply ag_choice. intros d.
    pose proof (@assoc_find _ ds d (map (fun x => flat_map (forms true) (snd x)) vs) 0 ltac:(rewrite map_length; exact Hl)) as Hf. rewrite assoc_map.
    destruct (find_disc d ds 0) as [i|] eqn:Ei; [|rewrite Hf; apply ag_wrong].
    destruct Hf as (fs & _ & Hn & Ha). rewrite Nat.sub_0_r in Hn. rewrite Ha. cbn [option_map]. rewrite nth_error_map in Hn.
    rewrite nth_error_map. destruct (nth_error vs i) as [x|] eqn:Ex; [|discriminate]. cbn [option_map] in *. injection Hn as <-.
    rewrite Forall_forall in H. specialize (H _ (nth_error_In _ _ Ex)).
    apply find_disc_inv in Ei. destruct Ei as (j & Hj & Hd). cbn [Nat.add] in Hj. subst j.
    eapply ag_maps; [apply ag_fields, forall2_map_r; eapply Forall_impl; [|exact H]; cbn beta; intros ? [? _]; assumption|].
    intros ws. cbn [content]. rewrite Ed, Hd, nth_error_map, Ex. reflexivity.
Qed.
Lemma reads t : Reads t.
Proof. apply reads_all. Qed.

Lemma reads_like t t' i i' r : ReadsLike t t' -> decode t i = (i', r) ->
  match r with
  | Ok v => exists v', decode t' i = (i', Ok v') /\ content true t' v' = content true t v
  | Err _ => exists e, decode t' i = (i', Err e)
  | Panic p => decode t' i = (i', Panic p)
  end.
Proof.
  intros E H. pose proof (reads t i) as H1. pose proof (reads t' i) as H2. unfold ReadsLike in E. rewrite E in H1. rewrite H in H1.
  destruct (pieces _ i) as [i1 [ps|e|p]], r as [v|e'|q], (decode t' i) as [i2 [w|e''|q']]; try contradiction.
  - destruct H1 as [-> ->], H2 as [-> H2]. eauto.
  - subst. eauto.
  - destruct H1 as [-> ->], H2 as [-> ->]. reflexivity.
Qed.

(* ================ writing *)

Section Writing.
  Variable checks : bool.

  Fixpoint run (fs : list (piece -> E)) (ps : list piece) {struct ps} : E :=
    match ps with
    | PStop :: _ => eerror EBadBorrow
    | p :: ps' => match fs with f :: fs' => eseq (f p) (run fs' ps') | [] => epanic PStuck end
    | [] => match fs with [] => eok | _ => epanic PStuck end
    end.

  Fixpoint wform (f : form) (p : piece) {struct f} : E :=
    match f, p with
    | FLeaf t, PLeaf v => encode checks t v
    | FSign a b, PSign s ps => eseq (enc_bool s) (if s then run (map wform b) ps else run (map wform a) ps)
    | FMany fs, PMany l => enc_slice (run (map wform fs)) EItem l
    | FText, PText bs | FNullFree, PText bs => enc_bytes bs
    | FChoice r vs, PChoice d ps =>
      eseq (enc_int r d)
        match assoc d (map (fun x => (fst x, map wform (snd x))) vs) with Some fs => run fs ps | None => epanic PStuck end
    | _, _ => epanic PStuck
    end.

  (* the same effects and the same outcome, but for the error *)
  Definition Alike (a b : E) : Prop := forall o,
    fst (a o) = fst (b o) /\
    match snd (a o), snd (b o) with
    | Ok _, Ok _ => True
    | Err _, Err _ => True
    | Panic p, Panic q => p = q
    | _, _ => False
    end.
  Lemma al_refl a : Alike a a.
  Proof. intros o. split; [reflexivity|]. destruct (snd (a o)); auto. Qed.
  Lemma al_sym a b : Alike a b -> Alike b a.
  Proof. intros H o. destruct (H o) as [E M]. split; [auto|]. destruct (snd (a o)), (snd (b o)); auto. Qed.
  Lemma al_trans a b c : Alike a b -> Alike b c -> Alike a c.
  Proof.
    intros H1 H2 o. destruct (H1 o) as [E1 M1], (H2 o) as [E2 M2]. split; [congruence|].
    destruct (snd (a o)), (snd (b o)), (snd (c o)); try contradiction; auto. congruence.
  Qed.
  Lemma al_seq a b a' b' : Alike a a' -> Alike b b' -> Alike (eseq a b) (eseq a' b').
  Proof.
    intros H1 H2 o. destruct (H1 o) as [E1 M1]. unfold eseq. destruct (a o) as [o1 [x|e|p]], (a' o) as [o2 [x'|e'|p']]; cbn [fst snd] in *; try contradiction; subst; auto.
  Qed.
  Lemma al_err f a b : Alike a b -> Alike (emap_err f a) b.
  Proof. intros H o. specialize (H o). unfold emap_err. destruct (a o) as [o1 [x|e|p]], (b o) as [o2 [x'|e'|p']]; exact H. Qed.
  Lemma al_err_r f a b : Alike a b -> Alike a (emap_err f b).
  Proof. intros H. apply al_sym, al_err, al_sym, H. Qed.
  Lemma al_ok_r a b : Alike a b -> Alike a (eseq b eok).
  Proof.
    intros H o. specialize (H o). unfold eseq, eok. destruct (b o) as [o2 [x'|e'|p']]; exact H.
  Qed.
  Lemma al_assoc a b c : Alike (eseq (eseq a b) c) (eseq a (eseq b c)).
  Proof. intros o. unfold eseq. destruct (a o) as [o1 [x|e|p]]; cbn; auto. destruct (b o1) as [o2 [y|e|p]]; cbn; auto. destruct (snd (c o2)); auto. Qed.
  Lemma al_error_seq e a b : Alike (eerror e) b -> Alike (eseq (eerror e) a) b.
  Proof. intros H o. exact (H o). Qed.
  Lemma al_error e e' : Alike (eerror e) (eerror e').
  Proof. intros o. split; [reflexivity | exact I]. Qed.
  Lemma al_items {A B} (f : A -> E) (g : B -> E) (c : A -> B) w w' l : Forall (fun x => Alike (f x) (g (c x))) l ->
    forall i j, Alike (enc_items f w i l) (enc_items g w' j (map c l)).
  Proof.
    induction 1 as [|x l H _ IH]; intros i j; cbn [map enc_items]; [apply al_refl|]. apply al_seq; [apply al_err, al_err_r, H | apply IH].
  Qed.
  Lemma al_slice {A B} (f : A -> E) (g : B -> E) (c : A -> B) w w' l : Forall (fun x => Alike (f x) (g (c x))) l ->
    Alike (enc_slice f w l) (enc_slice g w' (map c l)).
  Proof. intros H. unfold enc_slice. rewrite map_length. apply al_seq; [apply al_refl | apply al_items, H]. Qed.

  (* pieces for so many forms: just as many, or fewer and then a stop *)
  Inductive Aligned : nat -> list piece -> Prop :=
  | Al_nil : Aligned 0 []
  | Al_cons n p ps : p <> PStop -> Aligned n ps -> Aligned (S n) (p :: ps)
  | Al_stop n ps : Aligned n (PStop :: ps).

  Lemma run_cons f fs p ps : p <> PStop -> run (f :: fs) (p :: ps) = eseq (f p) (run fs ps).
  Proof. intros H. destruct p; try reflexivity. contradiction. Qed.
  Lemma run_app fs gs ps qs : Aligned (length fs) ps -> Alike (eseq (run fs ps) (run gs qs)) (run (fs ++ gs) (ps ++ qs)).
  Proof.
    revert ps. induction fs as [|f fs IH]; intros ps H; inversion H; subst; cbn [app length] in *.
    - intros o. cbn. split; [reflexivity|]. destruct (snd (run gs qs o)); auto.
    - cbn [run]. apply al_refl.
    - rewrite !run_cons by assumption. eapply al_trans; [apply al_assoc|]. apply al_seq; [apply al_refl | apply IH; assumption].
    - cbn [run]. apply al_error_seq, al_error.
  Qed.
  Lemma aligned_app n m ps qs : Aligned n ps -> Aligned m qs -> Aligned (n + m) (ps ++ qs).
  Proof. induction 1; intros Hm; cbn [app Nat.add]; [exact Hm | apply Al_cons; auto | apply Al_stop]. Qed.
  Lemma aligned_one p : p <> PStop -> Aligned 1 [p].
  Proof. intros H. apply Al_cons; [exact H | apply Al_nil]. Qed.

  (* [m] writes the pieces [ps] in the forms [fs] *)
  Definition Does (m : E) (fs : list form) (ps : list piece) : Prop := Aligned (length fs) ps /\ Alike m (run (map wform fs) ps).

  Lemma does_nil : Does eok [] [].
  Proof. split; [apply Al_nil | apply al_refl]. Qed.
  Lemma does_app a b fs gs ps qs : Does a fs ps -> Does b gs qs -> Does (eseq a b) (fs ++ gs) (ps ++ qs).
  Proof.
    intros [A1 R1] [A2 R2]. split; [rewrite app_length; apply aligned_app; assumption|]. rewrite map_app.
    eapply al_trans; [apply al_seq; eassumption|]. apply run_app. rewrite map_length. exact A1.
  Qed.
  Lemma does_err f a fs ps : Does a fs ps -> Does (emap_err f a) fs ps.
  Proof. intros [A1 R1]. split; [exact A1 | apply al_err, R1]. Qed.
  Lemma does_one m f p : p <> PStop -> Alike m (wform f p) -> Does m [f] [p].
  Proof. intros Hp H. split; [apply aligned_one, Hp|]. cbn [map]. rewrite run_cons by exact Hp. apply al_ok_r, H. Qed.
  Lemma does_leaf t v : Does (encode checks t v) [FLeaf t] [PLeaf v].
  Proof. apply does_one; [discriminate | apply al_refl]. Qed.
  Lemma does_fields conv ts : forall vs, Forall (fun t => forall v, wt t v -> Does (encode checks t v) (forms false t) (content false t v)) ts ->
    all2 (map wt ts) vs -> Does (enc_fields (map (encode checks) ts) conv vs) (flat_map (forms false) ts) (each (map (content false) ts) vs).
  Proof.
    induction ts as [|t ts IH]; intros [|v vs] H Hv; cbn [map all2] in Hv; try contradiction; cbn [map enc_fields flat_map each]; [apply does_nil|].
    inversion H; subst. apply does_app; [apply does_err; apply H2; tauto | apply IH; tauto].
  Qed.
  Lemma does_items t w : forall vs i, (forall v, wt t v -> Does (encode checks t v) (forms false t) (content false t v)) -> Forall (wt t) vs ->
    Does (enc_items (encode checks t) w i vs) (concat (repeat (forms false t) (length vs))) (flat_map (content false t) vs).
  Proof.
    intros vs i H Hv. revert i. induction Hv as [|v vs Hw _ IH]; intros i; cbn [enc_items length repeat concat flat_map]; [apply does_nil|].
    apply does_app; [apply does_err, H, Hw | apply IH].
  Qed.
  Lemma does_many t w vs : (forall v, wt t v -> Does (encode checks t v) (forms false t) (content false t v)) -> Forall (wt t) vs ->
    Does (enc_slice (encode checks t) w vs) [FMany (forms false t)] [PMany (map (content false t) vs)].
  Proof.
    intros H Hv. apply does_one; [discriminate|]. cbn [wform]. apply al_slice. eapply Forall_impl; [|exact Hv]. cbn beta. intros v Hw. apply H, Hw.
  Qed.
  Lemma does_choice r d vs fs m ps : assoc d vs = Some fs -> Does m fs ps -> Does (eseq (enc_int r d) m) [FChoice r vs] [PChoice d ps].
  Proof.
    intros Ha [_ H]. apply does_one; [discriminate|]. cbn [wform]. rewrite assoc_map, Ha. cbn [option_map]. apply al_seq; [apply al_refl | exact H].
  Qed.
  Lemma does_sock4 o p : Does (enc_sock4 o p) [FLeaf TIpv4; FLeaf (TInt U16)] [PLeaf (VIp4 o); PLeaf (VInt p)].
  Proof. apply (does_app (does_leaf TIpv4 (VIp4 o)) (does_leaf (TInt U16) (VInt p))). Qed.
  Lemma does_sock6 o p f s : Does (enc_sock6 o p f s) [FLeaf TIpv6; FLeaf (TInt U16); FLeaf (TInt U32); FLeaf (TInt U32)]
    [PLeaf (VIp6 o); PLeaf (VInt p); PLeaf (VInt f); PLeaf (VInt s)].
  Proof.
    apply (does_app (does_leaf TIpv6 (VIp6 o)) (does_app (does_leaf (TInt U16) (VInt p)) (does_app (does_leaf (TInt U32) (VInt f)) (does_leaf (TInt U32) (VInt s))))).
  Qed.

  Lemma does_sign (b : bool) fs gs m ps : Does m (if b then gs else fs) ps -> Does (eseq (enc_bool b) m) [FSign fs gs] [PSign b ps].
  Proof. intros [_ H]. apply does_one; [discriminate|]. cbn [wform]. apply al_seq; [apply al_refl | destruct b; exact H]. Qed.
  Lemma does_alike a b fs ps : Alike a b -> Does b fs ps -> Does a fs ps.
  Proof. intros H [A R]. split; [exact A | eapply al_trans; eassumption]. Qed.
  Lemma does_text bs : Does (enc_bytes bs) [FText] [PText bs].
  Proof. apply does_one; [discriminate | apply al_refl]. Qed.
  Lemma does_null bs : Does (enc_bytes bs) [FNullFree] [PText bs].
  Proof. apply does_one; [discriminate | apply al_refl]. Qed.
  Lemma al_just a : Alike a (eseq a eok).
  Proof. apply al_ok_r, al_refl. Qed.

  Definition Writes (t : ty) : Prop := forall v, wt t v -> Does (encode checks t v) (forms false t) (content false t v).
  Lemma writes t : Writes t.
  Proof.
    induction t using ty_ind_strong; intros v Hv; destruct v; try (destruct Hv; fail); cbn [wt] in Hv;
      cbn [encode forms content]; try apply does_leaf; try apply does_nil; try apply does_text; try apply does_null;
      try (apply does_many; [assumption | tauto]); auto.
    - eapply does_alike; [apply al_just|]. apply does_sign. destruct b; apply does_nil.
    - eapply does_alike; [apply al_just|]. apply does_sign. apply does_nil.
    - apply does_sign. apply IHt, Hv.
    - apply does_sign. apply IHt1, Hv.
    - apply does_sign. apply does_err, IHt2, Hv.
    - apply does_fields; assumption.
    - destruct Hv as [<- Hv]. apply does_items; assumption.
    - destruct t; try (apply IHt, Hv); destruct v; try (destruct Hv; fail); exact (IHt _ Hv).
    - unfold enc_refcell. destruct mut_borrowed; [|apply does_err, IHt, Hv]. split; [apply Al_stop | apply al_error].
    - eapply does_alike; [apply al_seq; [apply al_err, al_refl | apply al_refl]|]. apply (@does_choice U8 _ _ [FLeaf TIpv4]); [reflexivity|]. apply does_err, (does_leaf TIpv4 (VIp4 octets)).
    - eapply does_alike; [apply al_seq; [apply al_err, al_refl | apply al_refl]|]. apply (@does_choice U8 _ _ [FLeaf TIpv6]); [reflexivity|]. apply does_err, (does_leaf TIpv6 (VIp6 octets)).
    - apply does_sock4.
    - apply does_sock6.
    - eapply (@does_choice U8); [reflexivity | apply does_sock4].
    - eapply (@does_choice U8); [reflexivity | apply does_sock6].
    - apply does_app; [apply IHt | apply IHt]; tauto.
    - apply does_app; [apply IHt | apply IHt]; tauto.
    - eapply (@does_choice U8); [reflexivity | apply does_err, IHt, Hv].
    - eapply (@does_choice U8); [reflexivity | apply does_err, IHt, Hv].
    - eapply does_alike; [apply al_just|]. eapply (@does_choice U8); [reflexivity | apply does_nil].
    - apply does_fields; assumption.
    - destruct Hv as [Hok Hv]. unfold enum_ok in Hok. destruct (discriminants (map fst vs)) as [ds|] eqn:Ed; [|contradiction].
      pose proof (ds_length _ _ Ed) as Hl. rewrite map_length in Hl. rewrite nth_error_map in Hv |- *.
      destruct (nth_error vs i) as [x|] eqn:Ex; [|contradiction]. cbn [option_map] in *. unfold enc_enum. rewrite nth_error_map, Ex. cbn [option_map].
      assert (Hd : exists d, nth_error ds i = Some d).
      { destruct (nth_error ds i) as [d|] eqn:E; [eauto|]. apply nth_error_None in E. assert (i < length vs) by (apply nth_error_Some; congruence). lia. }
      destruct Hd as (d & Hd). rewrite Hd. rewrite Forall_forall in H. specialize (H _ (nth_error_In _ _ Ex)).
      eapply does_alike; [apply al_seq; [apply al_err, al_refl | apply al_refl]|]. eapply does_choice.
      + eapply assoc_nth; [apply Hok | exact Hd | rewrite nth_error_map, Ex; reflexivity].
      + apply does_fields; assumption.
  Qed.
End Writing.

Lemma writes_like checks t t' v v' : WritesLike t t' -> wt t v -> wt t' v' -> content false t v = content false t' v' -> forall o,
  fst (encode checks t' v' o) = fst (encode checks t v o) /\
  match snd (encode checks t v o) with
  | Ok _ => snd (encode checks t' v' o) = Ok tt
  | Err e => exists e', snd (encode checks t' v' o) = Err e'
  | Panic p => snd (encode checks t' v' o) = Panic p
  end.
Proof.
  intros E Hv Hv' Ec o. destruct (writes checks t v Hv) as [_ H1], (writes checks t' v' Hv') as [_ H2]. unfold WritesLike in E. rewrite E, Ec in H1.
  destruct (al_trans H1 (al_sym H2) o) as [Hf Hs]. split; [symmetry; exact Hf|].
  destruct (snd (encode checks t v o)) as [[]|e|p], (snd (encode checks t' v' o)) as [[]|e'|p']; try contradiction; eauto. congruence.
Qed.

(* ================ the content says it all *)

Section Faithful.
  Variable reading : bool.
  Notation form_of := (forms reading).
  Notation content_of := (content reading).

  Lemma each_len ts : Forall (fun t => forall v, wt t v -> length (content_of t (norm v)) = length (form_of t)) ts ->
    forall vs, all2 (map wt ts) vs -> length (each (map content_of ts) (map norm vs)) = length (flat_map form_of ts).
  Proof.
    induction 1 as [|t ts H _ IH]; intros [|v vs] Hv; cbn [map all2] in Hv; try contradiction; cbn [map each flat_map]; [reflexivity|].
    rewrite !app_length. f_equal; [apply H; tauto | apply IH; tauto].
  Qed.
  Lemma content_len t : forall v, wt t v -> length (content_of t (norm v)) = length (form_of t).
  Proof.
    induction t using ty_ind_strong; intros v Hv; destruct v; try (destruct Hv; fail); cbn [wt] in Hv; cbn [norm content forms]; auto.
    all: try (destruct reading; reflexivity).
    - apply each_len; assumption.
    - destruct Hv as [<- Hv]. induction Hv as [|v vs Hv _ IH]; cbn [map flat_map length repeat concat]; [reflexivity|].
      rewrite !app_length. f_equal; [apply IHt, Hv | exact IH].
    - destruct t; try (apply IHt, Hv); destruct v; try (destruct Hv; fail); reflexivity.
    - rewrite !app_length. f_equal; apply IHt; tauto.
    - rewrite !app_length. f_equal; apply IHt; tauto.
    - apply each_len; assumption.
    - destruct Hv as [Hok Hv]. unfold enum_ok in Hok. destruct (discriminants (map fst vs)) as [ds|] eqn:Ed; [|contradiction].
      pose proof (ds_length _ _ Ed) as Hl. rewrite map_length in Hl. rewrite nth_error_map in Hv |- *.
      destruct (nth_error vs i) as [x|] eqn:Ex; [|contradiction]. cbn [option_map].
      destruct (nth_error ds i) as [d|] eqn:E; [reflexivity|]. apply nth_error_None in E. assert (i < length vs) by (apply nth_error_Some; congruence). lia.
  Qed.

  Definition Same (t : ty) : Prop := forall v w, wt t v -> wt t w -> content_of t (norm v) = content_of t (norm w) -> norm v = norm w.
  Lemma app_split {A} (a b c d : list A) : length a = length c -> a ++ b = c ++ d -> a = c /\ b = d.
  Proof.
    revert c. induction a as [|x a IH]; intros [|y c] Hl E; cbn in *; try discriminate; [auto|].
    injection Hl as Hl. injection E as -> E. destruct (IH _ Hl E) as [-> ->]. auto.
  Qed.
  Lemma each_same ts : Forall Same ts -> forall vs ws, all2 (map wt ts) vs -> all2 (map wt ts) ws ->
    each (map content_of ts) (map norm vs) = each (map content_of ts) (map norm ws) -> map norm vs = map norm ws.
  Proof.
    induction 1 as [|t ts H _ IH]; intros [|v vs] [|w ws] Hv Hw E; cbn [map all2] in Hv, Hw; try contradiction; cbn [map each] in *; [reflexivity|].
    destruct Hv as [Hv Hvs], Hw as [Hw Hws]. apply app_split in E; [|rewrite !content_len by assumption; reflexivity]. destruct E as [E1 E2].
    f_equal; [apply H; assumption | apply IH; assumption].
  Qed.
  Lemma flat_same t : Same t -> forall vs ws, length vs = length ws -> Forall (wt t) vs -> Forall (wt t) ws ->
    flat_map (content_of t) (map norm vs) = flat_map (content_of t) (map norm ws) -> map norm vs = map norm ws.
  Proof.
    intros H. induction vs as [|v vs IH]; intros [|w ws] Hl Hv Hw E; cbn [length] in Hl; try discriminate; [reflexivity|].
    inversion Hv; inversion Hw; subst. cbn [map flat_map] in *. apply app_split in E; [|rewrite !content_len by assumption; reflexivity].
    destruct E as [E1 E2]. f_equal; [apply H; assumption | apply IH; auto].
  Qed.
  Lemma map_same t : Same t -> forall vs ws, Forall (wt t) vs -> Forall (wt t) ws ->
    map (content_of t) (map norm vs) = map (content_of t) (map norm ws) -> map norm vs = map norm ws.
  Proof.
    intros H. induction vs as [|v vs IH]; intros [|w ws] Hv Hw E; cbn [map] in *; try discriminate; [reflexivity|].
    inversion Hv; inversion Hw; subst. injection E as E1 E2. f_equal; [apply H; assumption | apply IH; auto].
  Qed.

  Lemma if_eq {A} (b : bool) (x y x' y' : A) : (if b then x else y) = (if b then x' else y') -> x = x' \/ y = y'.
  Proof. destruct b; auto. Qed.
  Lemma faithful_all t : Same t /\ match t with TSlice u => Same u | _ => True end.
  Proof.
    induction t using ty_ind_strong; (split; [|try exact I; try apply IHt]);
      repeat match goal with H : _ /\ _ |- _ => destruct H end; intros u u' Hv Hw; destruct u; try (destruct Hv; fail); destruct u'; try (destruct Hw; fail); cbn [wt] in Hv, Hw;
      cbn [norm content]; intros E; try reflexivity; try (injection E; intros; subst; reflexivity); try (injection E; intros; f_equal; auto; fail).
    all: try (apply f_equal, (each_same (ts := ts)); [eapply Forall_impl; [|eassumption]; cbn beta; intros ? [? _]; assumption | assumption..]).
    all: try discriminate.
    all: try (apply f_equal, (map_same H); [tauto | tauto | injection E; auto]; fail).
    all: try (apply if_eq in E; destruct E as [E|E]; injection E; [intros -> | intros; apply f_equal, (map_same H); [tauto | tauto | assumption]]; reflexivity).
    all: try (f_equal; apply H; assumption).
    all: try (destruct reading; injection E; intros; subst; reflexivity).
    - destruct Hv as [<- Hv], Hw as [Hl Hw]. apply f_equal. apply (flat_same H); auto.
    - f_equal. destruct t; try (apply H; assumption); destruct u; try (destruct Hv; fail); destruct u'; try (destruct Hw; fail); cbn [wt content norm] in *;
        injection E as E; [apply f_equal, (map_same H0); assumption | rewrite E; reflexivity | rewrite E; reflexivity].
    - destruct Hv, Hw. apply app_split in E; [|rewrite !content_len by assumption; reflexivity]. destruct E. f_equal; apply H; assumption.
    - destruct Hv, Hw. apply app_split in E; [|rewrite !content_len by assumption; reflexivity]. destruct E. f_equal; apply H; assumption.
    - destruct Hv as [Hok Hv], Hw as [_ Hw]. unfold enum_ok in Hok. destruct (discriminants (map fst vs)) as [ds|] eqn:Ed; [|contradiction].
      pose proof (ds_length _ _ Ed) as Hl. rewrite map_length in Hl. rewrite nth_error_map in Hv, Hw, E. rewrite (nth_error_map _ i0) in E.
      destruct (nth_error vs i) as [x|] eqn:Ex; [|contradiction]. destruct (nth_error vs i0) as [y|] eqn:Ey; [|contradiction]. cbn [option_map] in *.
      destruct (nth_error ds i) as [d|] eqn:E1; [|apply nth_error_None in E1; assert (i < length vs) by (apply nth_error_Some; congruence); lia].
      destruct (nth_error ds i0) as [d0|] eqn:E2; [|apply nth_error_None in E2; assert (i0 < length vs) by (apply nth_error_Some; congruence); lia].
      injection E as <- E. destruct Hok as [_ Hnd]. rewrite NoDup_nth_error in Hnd.
      assert (i = i0) as <- by (apply Hnd; [apply nth_error_Some; congruence | congruence]).
      assert (x = y) as <- by congruence. apply f_equal. rewrite Forall_forall in H. specialize (H _ (nth_error_In _ _ Ex)).
      apply each_same with (ts := snd x); try assumption. eapply Forall_impl; [|exact H]. cbn beta. intros ? [? _]. assumption.
  Qed.
  Lemma faithful t : Same t.
  Proof. apply faithful_all. Qed.
End Faithful.
