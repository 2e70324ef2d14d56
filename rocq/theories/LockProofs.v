(* C127. *)
From Coq Require Import Lia Sorted.
From Verif Require Import Base Streams Utf8 Types TypesFacts Encode SpecLazy Guards SpecGuards Locks SpecLocks.

Section Cells.
  Variable g : cells.

  (* ---- what a thread does in the end, and in how many steps *)
  Fixpoint keval (p : task) (o : output) : output * res eerr unit :=
    match p with
    | KDone r => (o, r)
    | KDo m k => let '(o1, r1) := m o in keval (k r1) o1
    | KRead a k | KLock a k => keval (k (g a)) o
    | KUnlock _ k => keval k o
    end.
  Fixpoint klen (p : task) (o : output) : nat :=
    match p with
    | KDone r => 0
    | KDo m k => let '(o1, r1) := m o in Datatypes.S (klen (k r1) o1)
    | KRead a k | KLock a k => Datatypes.S (klen (k (g a)) o)
    | KUnlock _ k => Datatypes.S (klen k o)
    end.

  Definition As (p : task) (m : E) : Prop := forall o, keval p o = m o.
  Lemma as_do m : As (kdo m) m.
  Proof. intros o. cbn. destruct (m o). reflexivity. Qed.
  Lemma keval_seq p q : forall o, keval (kseq p q) o = match keval p o with (o1, Ok _) => keval q o1 | x => x end.
  Proof.
    induction p as [r|m k IH|a k IH|a k IH|a k IH]; intros o; cbn [kseq keval]; [destruct r; reflexivity | destruct (m o); apply IH | apply IH..].
  Qed.
  Lemma as_seq p q m n : As p m -> As q n -> As (kseq p q) (eseq m n).
  Proof. intros Hp Hq o. rewrite keval_seq, Hp. unfold eseq. destruct (m o) as [o1 [u|e|x]]; [apply Hq | reflexivity..]. Qed.
  Lemma as_map f p m : As p m -> As (kmap_err f p) (emap_err f m).
  Proof.
    intros Hp o. unfold emap_err. rewrite <- Hp. clear Hp. revert o.
    induction p as [r|q k IH|a k IH|a k IH|a k IH]; intros o; cbn [kmap_err keval]; [destruct r; reflexivity | destruct (q o); apply IH | apply IH..].
  Qed.
  Lemma as_finally a p m : As p m -> As (kfinally a p) m.
  Proof.
    intros Hp o. rewrite <- Hp. clear Hp. revert o.
    induction p as [r|q k IH|b k IH|b k IH|b k IH]; intros o; cbn [kfinally keval]; [reflexivity | destruct (q o); apply IH | apply IH..].
  Qed.
  Lemma as_items f (e : val -> E) (h : val -> val) wrap vs : (forall x, As (f x) (e (h x))) -> forall i, As (k_items f wrap i vs) (enc_items e wrap i (map h vs)).
  Proof. intros H. induction vs as [|x vs IH]; intros i; cbn [k_items enc_items map]; [apply as_do | apply as_seq; [apply as_map, H | apply IH]]. Qed.
  Lemma as_slice f (e : val -> E) (h : val -> val) wrap vs : (forall x, As (f x) (e (h x))) -> As (k_slice f wrap vs) (enc_slice e wrap (map h vs)).
  Proof. intros H. unfold k_slice, enc_slice. rewrite List.map_length. apply as_seq; [apply as_do | apply as_items, H]. Qed.
  Lemma as_entries f (e : val -> E) (h : val -> val) f' (e' : val -> E) (h' : val -> val) vs : (forall x, As (f x) (e (h x))) -> (forall x, As (f' x) (e' (h' x))) ->
    As (k_entries f f' vs) (enc_entries e e' (map (fun p => (h (fst p), h' (snd p))) vs)).
  Proof.
    intros H H'. induction vs as [|[x y] vs IH]; cbn [k_entries enc_entries map fst snd]; [apply as_do | apply as_seq; [apply H | apply as_seq; [apply H' | exact IH]]].
  Qed.
  Lemma as_keys f (e : val -> E) (h : val -> val) vs : (forall x, As (f x) (e (h x))) -> As (k_keys f vs) (enc_keys e (map h vs)).
  Proof. intros H. induction vs as [|x vs IH]; cbn [k_keys enc_keys map]; [apply as_do | apply as_seq; [apply H | exact IH]]. Qed.
  Lemma as_fields ch ts conv : Forall (fun t => forall v, As (lock_encode ch t v) (encode ch t (shown g t v))) ts ->
    forall vs, As (k_fields (map (lock_encode ch) ts) conv vs) (enc_fields (map (encode ch) ts) conv (each (map (shown g) ts) vs)).
  Proof.
    induction 1 as [|t ts Ht _ IH]; intros [|v vs]; cbn [map k_fields enc_fields each]; try apply as_do. apply as_seq; [apply as_map, Ht | apply IH].
  Qed.

  Lemma lock_as ch t : forall v, As (lock_encode ch t v) (encode ch t (shown g t v)).
  Proof.
    induction t using ty_ind_strong; intros v0; destruct v0; cbn [lock_encode shown]; try apply as_do; cbn [encode].
    all: try (apply as_seq; [apply as_do | first [apply IHt | apply IHt1 | apply as_map; first [apply IHt | apply IHt2]]]).
    all: try (apply as_fields; assumption).
    all: try (apply as_items; exact IHt).
    all: try (apply as_slice; exact IHt).
    all: try (apply as_keys; exact IHt).
    all: try (apply as_seq; apply IHt).
    all: try apply IHt.
    all: try (match goal with k : lock |- _ => destruct k; apply as_do end).
    - unfold enc_refcell. destruct v0; try (destruct mut_borrowed; [apply as_do | apply as_map, IHt]). intros o. cbn [keval]. destruct (g_borrowed (g z)); [apply as_do | apply as_map, IHt].
    - destruct l, v0; try apply IHt. intros o. cbn [keval]. apply as_finally, IHt.
    - apply as_entries; assumption.
    - unfold k_enum, enc_enum. destruct (discriminants (map fst vs)) as [ds|]; [|apply as_do]. destruct (nth_error ds i) as [dz|]; [|apply as_do].
      rewrite !nth_error_map. destruct (nth_error vs i) as [[x ts]|] eqn:Ev; cbn [option_map snd]; [|apply as_do].
      apply as_seq; [apply as_do|]. apply as_fields. rewrite Forall_forall in H. exact (H _ (nth_error_In _ _ Ev)).
  Qed.

  Definition results (s : threads) : list (output * res eerr unit) := map (fun x => keval (snd x) (fst x)) (k_tasks s).
  Definition left_to_do (s : threads) : nat := list_sum (map (fun x => klen (snd x) (fst x)) (k_tasks s)).

  Lemma step_results s s' : kstep g s s' -> results s' = results s /\ left_to_do s = Datatypes.S (left_to_do s').
  Proof.
    intros H. destruct H as [l xs ys o m k o' r E|l xs ys o a k|l xs ys o a k E|l xs ys o a k]; unfold results, left_to_do; cbn [k_tasks];
      rewrite !map_app; cbn [map fst snd keval klen]; rewrite ?E, ?list_sum_app; cbn [list_sum fold_right]; (split; [reflexivity|]); unfold list_sum; lia.
  Qed.
  Lemma runs_results n s s' : KRuns g n s s' -> results s' = results s /\ left_to_do s = n + left_to_do s'.
  Proof.
    induction 1 as [s|n s s1 s2 H1 _ [IH1 IH2]]; [split; reflexivity|]. destruct (step_results _ _ H1) as [E1 E2]. split; [congruence | lia].
  Qed.

  Lemma begin_results ch cs : results (begin ch cs) = map (fun c : call => encode ch (fst (fst c)) (shown g (fst (fst c)) (snd (fst c))) (snd c)) cs.
  Proof. unfold results, begin. cbn [k_tasks]. rewrite map_map. apply map_ext. intros [[t v] o]. cbn [fst snd]. apply lock_as. Qed.

  Lemma forall2_of_map {A B C} (f : A -> C) (h : B -> C) l : forall l', map f l = map h l' -> Forall2 (fun x y => f x = h y) l l'.
  Proof. induction l as [|x l IH]; intros [|y l'] H; try discriminate; constructor; inversion H; auto. Qed.

  Lemma forall2_impl {A B} (R R' : A -> B -> Prop) l l' : (forall a b, R a b -> R' a b) -> Forall2 R l l' -> Forall2 R' l l'.
  Proof. intros H. induction 1; constructor; auto. Qed.

  Lemma outcome ch cs n s : KRuns g n (begin ch cs) s -> Forall2 (fun c x => forall r, snd x = KDone r -> Ended ch g c x) cs (k_tasks s).
  Proof.
    intros H. destruct (runs_results _ _ _ H) as [E _]. rewrite begin_results in E. symmetry in E. apply forall2_of_map in E.
    eapply forall2_impl; [|exact E]. intros [[t v] o] [o' p]. cbn [fst snd]. intros Ee r ->. exists o', r. split; [reflexivity | exact Ee].
  Qed.

  (* ---- locks are taken in the order of the numbers *)
  Variable rank : Z -> nat.
  Hypothesis Hrank : forall a c t, LockIn false g c t (g_val (g a)) -> rank c < rank a.

  Definition below (a : Z) (h : list Z) : Prop := match h with [] => True | b :: _ => rank a < rank b end.
  Fixpoint nests (h top : list Z) (p : task) : Prop :=
    match p with
    | KDone _ => h = top
    | KDo m k => forall r, nests h top (k r)
    | KRead a k => nests h top (k (g a))
    | KLock a k => below a h /\ nests (a :: h) top (k (g a))
    | KUnlock a k => exists h', h = a :: h' /\ nests h' top k
    end.
  Lemma nests_do h m : nests h h (kdo m).
  Proof. intros r. reflexivity. Qed.
  Lemma nests_seq p q top : nests top top q -> forall h, nests h top p -> nests h top (kseq p q).
  Proof.
    intros Hq. induction p as [r|m k IH|a k IH|a k IH|a k IH]; intros h; cbn [kseq nests].
    - intros ->. destruct r; [exact Hq | reflexivity..].
    - intros H r. apply IH, H.
    - apply IH.
    - intros [H1 H2]. split; [exact H1 | apply IH, H2].
    - intros (h' & -> & H). eauto.
  Qed.
  Lemma nests_map f p top : forall h, nests h top p -> nests h top (kmap_err f p).
  Proof.
    induction p as [r|m k IH|a k IH|a k IH|a k IH]; intros h; cbn [kmap_err nests].
    - intros ->. destruct r; reflexivity.
    - intros H r. apply IH, H.
    - apply IH.
    - intros [H1 H2]. split; [exact H1 | apply IH, H2].
    - intros (h' & -> & H). eauto.
  Qed.
  Lemma nests_finally a p top : forall h, nests h (a :: top) p -> nests h top (kfinally a p).
  Proof.
    induction p as [r|m k IH|b k IH|b k IH|b k IH]; intros h; cbn [kfinally nests].
    - intros ->. exists top. split; reflexivity.
    - intros H r. apply IH, H.
    - apply IH.
    - intros [H1 H2]. split; [exact H1 | apply IH, H2].
    - intros (h' & -> & H). eauto.
  Qed.
  Lemma nests_items f (P : val -> Prop) top wrap vs : (forall x, P x -> nests top top (f x)) -> Forall P vs -> forall i, nests top top (k_items f wrap i vs).
  Proof. intros H. induction 1 as [|x vs Hx _ IH]; intros i; cbn [k_items]; [apply nests_do | apply nests_seq; [apply IH | apply nests_map, H, Hx]]. Qed.
  Lemma nests_slice f (P : val -> Prop) top wrap vs : (forall x, P x -> nests top top (f x)) -> Forall P vs -> nests top top (k_slice f wrap vs).
  Proof. intros H Hv. apply nests_seq; [apply (nests_items f P top wrap vs H Hv) | apply nests_do]. Qed.
  Lemma nests_entries f f' (P P' : val -> Prop) top vs : (forall x, P x -> nests top top (f x)) -> (forall x, P' x -> nests top top (f' x)) ->
    Forall (fun p => P (fst p) /\ P' (snd p)) vs -> nests top top (k_entries f f' vs).
  Proof.
    intros H H'. induction 1 as [|[x y] vs [Hx Hy] _ IH]; cbn [k_entries fst snd] in *; [apply nests_do|].
    apply nests_seq; [apply nests_seq; [exact IH | apply H', Hy] | apply H, Hx].
  Qed.
  Lemma nests_keys f (P : val -> Prop) top vs : (forall x, P x -> nests top top (f x)) -> Forall P vs -> nests top top (k_keys f vs).
  Proof. intros H. induction 1 as [|x vs Hx _ IH]; cbn [k_keys]; [apply nests_do | apply nests_seq; [exact IH | apply H, Hx]]. Qed.

  Definition ordered ch t := forall v top, (forall c, LockIn false g c t v -> below c top) -> nests top top (lock_encode ch t v).
  Lemma nests_fields ch ts conv top : Forall (ordered ch) ts -> forall vs, (forall c, Some_of (map (LockIn false g c) ts) vs -> below c top) ->
    nests top top (k_fields (map (lock_encode ch) ts) conv vs).
  Proof.
    induction 1 as [|t ts Ht _ IH]; intros [|v vs] Hc; cbn [map k_fields Some_of] in *; try apply nests_do.
    apply nests_seq; [apply IH; intros c Hs; apply Hc; right; exact Hs | apply nests_map, Ht; intros c Hs; apply Hc; left; exact Hs].
  Qed.
  Lemma forall_of_exists {A} (P : Z -> A -> Prop) (Q : Z -> Prop) l : (forall c, Exists (P c) l -> Q c) -> Forall (fun x => forall c, P c x -> Q c) l.
  Proof. intros H. rewrite Forall_forall. intros x Hx c Hp. apply H. rewrite Exists_exists. eauto. Qed.

  Lemma lock_ordered ch t : ordered ch t.
  Proof.
    induction t using ty_ind_strong; intros v0 top; destruct v0; cbn [lock_encode LockIn]; intros Hc; try apply nests_do.
    all: try (apply nests_seq; [first [apply IHt; exact Hc | apply IHt1; exact Hc | apply nests_map; first [apply IHt; exact Hc | apply IHt2; exact Hc]] | apply nests_do]).
    all: try (apply nests_fields; assumption).
    all: try (apply forall_of_exists in Hc).
    all: try (eapply nests_items; [|exact Hc]; cbn beta; intros x Hx; apply IHt; exact Hx).
    all: try (eapply nests_slice; [|exact Hc]; cbn beta; intros x Hx; apply IHt; exact Hx).
    all: try (eapply nests_keys; [|exact Hc]; cbn beta; intros x Hx; apply IHt; exact Hx).
    all: try (apply nests_seq; apply IHt; intros c Hi; apply Hc; tauto).
    all: try (apply IHt; exact Hc).
    all: try (match goal with k : lock |- _ => destruct k; apply nests_do end).
    - destruct v0; try (destruct mut_borrowed; [apply nests_do | apply nests_map, IHt; exact Hc]). cbn [nests]. destruct (g_borrowed (g z)); [apply nests_do | apply nests_map, IHt; exact Hc].
    - destruct l, v0; try (apply IHt; exact Hc); cbn [nests].
      + split; [apply Hc; left; reflexivity|]. apply nests_finally, IHt. intros c Hi. cbn. exact (Hrank _ _ _ Hi).
      + apply IHt. intros c Hi. apply Hc. right. exact Hi.
    - eapply nests_entries with (P := fun x => forall c, LockIn false g c t1 x -> below c top) (P' := fun x => forall c, LockIn false g c t2 x -> below c top);
        [intros x Hx; apply IHt1; exact Hx | intros x Hx; apply IHt2; exact Hx|].
      eapply Forall_impl; [|exact Hc]. cbn beta. intros [x y] Hx. cbn [fst snd] in *. split; intros c Hi; apply Hx; auto.
    - unfold k_enum. destruct (discriminants (map fst vs)) as [ds|]; [|apply nests_do]. destruct (nth_error ds i) as [dz|]; [|apply nests_do].
      rewrite !nth_error_map. destruct (nth_error vs i) as [[x ts]|] eqn:Ev; cbn [option_map snd]; [|apply nests_do].
      apply nests_seq; [|apply nests_do]. apply nests_fields; [rewrite Forall_forall in H; exact (H _ (nth_error_In _ _ Ev))|].
      intros c Hs. apply Hc. rewrite nth_error_map, Ev. exact Hs.
  Qed.

  (* ---- all threads *)
  Definition sorted := StronglySorted (fun x y => rank x < rank y).
  Definition Inv (s : threads) : Prop := exists hs, Forall2 (fun h x => nests h [] (snd x) /\ sorted h) hs (k_tasks s) /\
    forall a, k_locked s a = true -> exists h, In h hs /\ In a h.

  Lemma sorted_cons a h : below a h -> sorted h -> sorted (a :: h).
  Proof.
    intros Hb Hs. constructor; [exact Hs|]. destruct h as [|b h]; [constructor|]. cbn in Hb. constructor; [exact Hb|].
    inversion Hs; subst. eapply Forall_impl; [|eassumption]. cbn. intros c Hc. lia.
  Qed.

  Lemma inv_step s s' : kstep g s s' -> Inv s -> Inv s'.
  Proof.
    intros H (hs & Hf & Hl).
    destruct H as [l xs ys o m k o' r E|l xs ys o a k|l xs ys o a k E|l xs ys o a k]; cbn [k_tasks k_locked] in *;
      apply Forall2_app_inv_r in Hf; destruct Hf as (hx & hy & F1 & F2 & ->); inversion F2 as [|h x hy' ys' [Hn Hs] F3]; subst; clear F2; cbn [snd nests] in Hn.
    - exists (hx ++ h :: hy'). split; [apply Forall2_app; [exact F1|]; constructor; [split; [apply Hn | exact Hs] | exact F3] | exact Hl].
    - exists (hx ++ h :: hy'). split; [apply Forall2_app; [exact F1|]; constructor; [split; [exact Hn | exact Hs] | exact F3] | exact Hl].
    - destruct Hn as [Hb Hn]. exists (hx ++ (a :: h) :: hy').
      split; [apply Forall2_app; [exact F1|]; constructor; [split; [exact Hn | apply sorted_cons; assumption] | exact F3]|]. cbn [k_locked].
      intros c Hc. unfold mark in Hc. destruct (Z.eqb_spec c a) as [Ec|Hne].
      + subst c. exists (a :: h). split; [apply in_elt | left; reflexivity].
      + destruct (Hl c Hc) as (h1 & Hi & Hc1). apply in_app_or in Hi. destruct Hi as [Hi|[<-|Hi]].
        * exists h1. split; [apply in_or_app; left; exact Hi | exact Hc1].
        * exists (a :: h). split; [apply in_elt | right; exact Hc1].
        * exists h1. split; [apply in_or_app; right; right; exact Hi | exact Hc1].
    - destruct Hn as (h' & -> & Hn). exists (hx ++ h' :: hy').
      split; [apply Forall2_app; [exact F1|]; constructor; [split; [exact Hn | inversion Hs; assumption] | exact F3]|]. cbn [k_locked].
      intros c Hc. unfold mark in Hc. destruct (Z.eqb_spec c a) as [Ec|Hne]; [discriminate|].
      destruct (Hl c Hc) as (h1 & Hi & Hc1). apply in_app_or in Hi. destruct Hi as [Hi|[<-|Hi]].
      + exists h1. split; [apply in_or_app; left; exact Hi | exact Hc1].
      + exists h'. split; [apply in_elt|]. destruct Hc1 as [E|Hc1]; [congruence | exact Hc1].
      + exists h1. split; [apply in_or_app; right; right; exact Hi | exact Hc1].
  Qed.

  Lemma inv_begin ch cs : Inv (begin ch cs).
  Proof.
    exists (map (fun _ => []) cs). split.
    - unfold begin. cbn [k_tasks]. induction cs as [|c cs IH]; cbn [map]; constructor; [|exact IH]. cbn [snd]. split; [|constructor].
      apply lock_ordered. intros a _. exact I.
    - intros a. cbn. discriminate.
  Qed.
  Lemma inv_runs n s s' : KRuns g n s s' -> Inv s -> Inv s'.
  Proof. induction 1 as [s|n s s1 s2 H1 _ IH]; [exact (fun h => h) | intros H; apply IH, (inv_step _ _ H1 H)]. Qed.

  Definition waiting (x : output * task) : Prop := match snd x with KDone _ => True | KLock _ _ => True | _ => False end.

  Lemma forall2_in_l {A B} (R : A -> B -> Prop) l l' x : Forall2 R l l' -> In x l -> exists y, In y l' /\ R x y.
  Proof. induction 1 as [|a b l l' Hr _ IH]; [intros [] | intros [<-|H]; [exists b; split; [left; reflexivity | exact Hr] | destruct (IH H) as (y & H1 & H2); exists y; split; [right; exact H1 | exact H2]]]. Qed.

  (* some thread can go on, unless all have ended *)
  Lemma progress s : Inv s -> (exists s', kstep g s s') \/ Forall (fun x => exists r, snd x = KDone r) (k_tasks s).
  Proof.
    intros (hs & Hf & Hl). destruct s as [l ts]. cbn [k_tasks k_locked] in *.
    destruct (Exists_dec (fun x => match snd x with KDo _ _ | KRead _ _ | KUnlock _ _ => True | KLock a _ => l a = false | KDone _ => False end) ts) as [He|Hn].
    { intros [o p]. cbn [snd]. destruct p; try (left; exact I); try (right; exact (fun h => h)). destruct (l a); [right; discriminate | left; reflexivity]. }
    - left. apply Exists_exists in He. destruct He as ([o p] & Hi & Hp). apply in_split in Hi. destruct Hi as (xs & ys & ->). cbn [snd] in Hp.
      destruct p as [r|m k|a k|a k|a k]; [contradiction | destruct (m o) as [o1 r1] eqn:E|..]; eexists; [eapply KStep_do; exact E | apply KStep_read | apply KStep_lock; exact Hp | apply KStep_unlock].
    - right. rewrite <- Forall_Exists_neg in Hn. rewrite Forall_forall in Hn.
      assert (W : forall n o a k, rank a < n -> ~ In (o, KLock a k) ts).
      { induction n as [|n IH]; intros o a k Hr Hi; [lia|]. pose proof (Hn _ Hi) as Ha. cbn [snd] in Ha.
        assert (La : l a = true) by (destruct (l a); [reflexivity | congruence]). destruct (Hl a La) as (h & Hh & Hah).
        destruct (@forall2_in_l _ _ _ _ _ _ Hf Hh) as ([o1 p1] & Hi1 & Hne & Hso). cbn [snd] in Hne. pose proof (Hn _ Hi1) as Hp1. cbn [snd] in Hp1.
        destruct p1 as [r|m1 k1|b k1|b k1|b k1]; try (exact (Hp1 I)).
        - cbn [nests] in Hne. subst h. destruct Hah.
        - cbn [nests] in Hne. destruct Hne as [Hb _]. destruct h as [|c h]; [destruct Hah|]. cbn in Hb.
          assert (Hle : rank c <= rank a). { destruct Hah as [->|Hah]; [lia|]. inversion Hso as [|c' h' _ Hall]; subst. rewrite Forall_forall in Hall. specialize (Hall _ Hah). lia. }
          apply (IH o1 b k1); [lia | exact Hi1]. }
      rewrite Forall_forall. intros [o p] Hi. pose proof (Hn _ Hi) as Hp. cbn [snd] in *. destruct p as [r|m k|a k|a k|a k]; try (exfalso; exact (Hp I)); [eauto|].
      exfalso. exact (W (Datatypes.S (rank a)) o a k (Nat.lt_succ_diag_r _) Hi).
  Qed.
End Cells.

Lemma C127_outcome_lemma : forall checks g cs n s, KRuns g n (begin checks cs) s ->
  Forall2 (fun c x => forall r, snd x = KDone r -> Ended checks g c x) cs (k_tasks s).
Proof. exact (fun ch g cs n s => outcome g ch cs n s). Qed.

Lemma C127_progress_lemma : forall checks g cs n s, Acyclic g -> KRuns g n (begin checks cs) s ->
  (exists s', kstep g s s') \/ Forall2 (Ended checks g) cs (k_tasks s).
Proof.
  intros ch g cs n s (rank & Hr) H. destruct (@progress g rank Hr s) as [G|G]; [apply (@inv_runs g rank Hr n _ _ H), (@inv_begin g rank Hr) | left; exact G | right].
  pose proof (outcome g ch cs n s H) as O. clear H. induction O as [|c x cs ts Ho _ IH]; constructor; inversion G as [|? ? (r & Er) G']; subst; [exact (Ho r Er) | exact (IH G')].
Qed.

Lemma C127_ends_lemma : forall checks g cs, exists most, forall n s, KRuns g n (begin checks cs) s -> n <= most.
Proof. intros ch g cs. exists (left_to_do g (begin ch cs)). intros n s H. destruct (runs_results g _ _ _ H) as [_ E]. lia. Qed.

(* a single thread that waits *)
Lemma stuck g l o a k s' : l a = true -> ~ kstep g (Threads l [(o, KLock a k)]) s'.
Proof.
  intros Hl H. remember (Threads l [(o, KLock a k)]) as s eqn:E. destruct H as [l1 xs ys o1 m k1 o' r E1|l1 xs ys o1 b k1|l1 xs ys o1 b k1 E1|l1 xs ys o1 b k1];
    inversion E as [[A B]]; (destruct xs as [|x xs]; [|destruct xs; discriminate]); cbn in B; inversion B; subst; congruence.
Qed.
