(* C128. *)
From Coq Require Import Lia.
From Verif Require Import Base BaseFacts Streams StreamFacts Utf8 Types TypesFacts Encode EncodeFacts EncodeProofs SpecLazy Guards SpecGuards GuardProofs Recursive RecursiveFacts
  Cyclic SpecCyclic.

(* ---- encoders only move forward *)
Definition room (o : output) : nat := output_remaining o.
Definition Step (o o' : output) : Prop := output_capacity o' = output_capacity o /\ (output_position o <= output_position o' <= output_capacity o)%nat.
Definition Steps (m : E) : Prop := forall o o' r, wf_out o -> m o = (o', r) -> Step o o'.
Definition Grow (m : E) : Prop := forall o o' u, wf_out o -> m o = (o', Ok u) -> (output_position o < output_position o')%nat.

Lemma step_wf o o' : Step o o' -> wf_out o'.
Proof. unfold Step, wf_out, output_capacity, output_position. lia. Qed.
Lemma step_refl o : wf_out o -> Step o o.
Proof. unfold Step, wf_out, output_capacity, output_position. lia. Qed.
Lemma step_trans a b c : Step a b -> Step b c -> Step a c.
Proof. unfold Step. lia. Qed.

Lemma steps_encode ch t v : Steps (encode ch t v).
Proof. intros o o' r Hw H. destruct (@C07_lemma ch t v o o' r Hw H) as (H1 & H2 & _). split; assumption. Qed.
Lemma steps_ok : Steps eok.
Proof. intros o o' r Hw H. inversion H; subst. apply step_refl, Hw. Qed.
Lemma steps_error e : Steps (eerror e).
Proof. intros o o' r Hw H. inversion H; subst. apply step_refl, Hw. Qed.
Lemma steps_panic e : Steps (epanic e).
Proof. intros o o' r Hw H. inversion H; subst. apply step_refl, Hw. Qed.
Lemma steps_int i z : Steps (enc_int i z).
Proof. exact (steps_encode true (TInt i) (VInt z)). Qed.
Lemma steps_u8 z : Steps (enc_u8 z).
Proof. exact (steps_int U8 z). Qed.
Lemma steps_map f m : Steps m -> Steps (emap_err f m).
Proof. intros H o o' r Hw E. unfold emap_err in E. destruct (m o) as [o1 [u|e|p]] eqn:Em; inversion E; subst; exact (H _ _ _ Hw Em). Qed.
Lemma steps_seq m n : Steps m -> Steps n -> Steps (eseq m n).
Proof.
  intros H1 H2 o o' r Hw E. unfold eseq in E. destruct (m o) as [o1 [u|e|p]] eqn:Em; pose proof (H1 _ _ _ Hw Em) as S1; [|inversion E; subst; exact S1..].
  eapply step_trans; [exact S1 | exact (H2 _ _ _ (step_wf _ _ S1) E)].
Qed.
Lemma steps_items {A} (f : A -> E) wrap l : (forall x, Steps (f x)) -> forall i, Steps (enc_items f wrap i l).
Proof. intros H. induction l as [|x l IH]; intros i; cbn [enc_items]; [apply steps_ok | apply steps_seq; [apply steps_map, H | apply IH]]. Qed.
Lemma steps_fields ch ts conv : forall vs, Steps (enc_fields (map (encode ch) ts) conv vs).
Proof.
  induction ts as [|t ts IH]; intros [|v vs]; cbn [map enc_fields]; try apply steps_panic; [apply steps_ok|].
  apply steps_seq; [apply steps_map, steps_encode | apply IH].
Qed.

Lemma grow_num w z : (0 < w)%nat -> Grow (enc_num w z).
Proof.
  intros H o o' u Hw E. unfold enc_num, ewrite, output_write in E. destruct (_ <? _); [discriminate|]. inversion E; subst.
  unfold output_position. cbn [o_pos]. rewrite le_bytes_length. lia.
Qed.
Lemma grow_error e : Grow (eerror e).
Proof. intros o o' u _ H. discriminate. Qed.
Lemma grow_panic e : Grow (epanic e).
Proof. intros o o' u _ H. discriminate. Qed.
Lemma grow_usize z : Grow (enc_usize z).
Proof. unfold enc_usize. destruct (_ && _)%bool; [apply grow_num; lia | apply grow_error]. Qed.
Lemma grow_int i z : Grow (enc_int i z).
Proof.
  destruct i; cbn [enc_int iwidth]; try (apply grow_num; lia); [apply grow_usize|].
  unfold enc_isize. destruct (_ && _)%bool; [apply grow_num; lia | apply grow_error].
Qed.
Lemma grow_u8 z : Grow (enc_u8 z).
Proof. apply grow_num. lia. Qed.
Lemma grow_map f m : Grow m -> Grow (emap_err f m).
Proof. intros H o o' u Hw E. unfold emap_err in E. destruct (m o) as [o1 [u1|e|p]] eqn:Em; inversion E; subst; exact (H _ _ _ Hw Em). Qed.
Lemma grow_l m n : Grow m -> Steps m -> Steps n -> Grow (eseq m n).
Proof.
  intros H1 H2 H3 o o' u Hw E. unfold eseq in E. destruct (m o) as [o1 [u1|e|p]] eqn:Em; try discriminate.
  pose proof (H1 _ _ _ Hw Em). pose proof (H2 _ _ _ Hw Em) as S1. pose proof (H3 _ _ _ (step_wf _ _ S1) E) as S2. unfold Step in *. lia.
Qed.
Lemma grow_r m n : Steps m -> Grow n -> Grow (eseq m n).
Proof.
  intros H1 H2 o o' u Hw E. unfold eseq in E. destruct (m o) as [o1 [u1|e|p]] eqn:Em; try discriminate.
  pose proof (H1 _ _ _ Hw Em) as S1. pose proof (H2 _ _ _ (step_wf _ _ S1) E). unfold Step in *. lia.
Qed.
Lemma grow_slice {A} (f : A -> E) wrap l : (forall x, Steps (f x)) -> Grow (enc_slice f wrap l).
Proof.
  intros H. unfold enc_slice. apply grow_l; [apply grow_map, grow_usize | apply steps_map, (steps_int Usize) | apply steps_items, H].
Qed.
Lemma grow_bytes bs : Grow (enc_bytes bs).
Proof. apply grow_slice. intros x. apply steps_u8. Qed.
Lemma grow_fields ch ts conv : Forall (fun t => writes t = true -> forall v, Grow (encode ch t v)) ts -> existsb writes ts = true ->
  forall vs, Grow (enc_fields (map (encode ch) ts) conv vs).
Proof.
  induction 1 as [|t ts Ht _ IH]; cbn [existsb]; intros He; [discriminate|]. intros [|v vs]; cbn [map enc_fields]; [apply grow_panic|].
  apply Bool.orb_true_iff in He as [He|He].
  - apply grow_l; [apply grow_map, Ht, He | apply steps_map, steps_encode | apply steps_fields].
  - apply grow_r; [apply steps_map, steps_encode | apply IH, He].
Qed.

Lemma writes_grow ch t : writes t = true -> forall v, Grow (encode ch t v).
Proof.
  induction t using ty_ind_strong; cbn [writes]; intros Hw v0; try discriminate Hw; destruct v0; cbn [encode]; try apply grow_panic.
  all: try (apply grow_int). all: try (apply grow_num; lia). all: try apply grow_bytes. all: try (apply IHt; exact Hw).
  all: try (apply grow_slice; apply steps_encode).
  all: try (apply grow_fields; assumption).
  all: try (apply grow_l; [apply grow_u8 | apply steps_u8 | first [apply steps_encode | apply steps_map, steps_encode]]; fail).
  all: try (apply grow_r; [apply steps_encode | apply IHt; exact Hw]).
  all: try apply grow_u8.
  - unfold enc_refcell. destruct mut_borrowed; [apply grow_error | apply grow_map, IHt, Hw].
  - unfold enc_duration. apply grow_l; [apply grow_num; lia | exact (steps_int U64 _) | exact (steps_int U32 _)].
  - apply grow_l; [apply grow_map, grow_u8 | apply steps_map, steps_u8 | apply steps_map; exact (steps_int U32 _)].
  - apply grow_l; [apply grow_map, grow_u8 | apply steps_map, steps_u8 | apply steps_map; exact (steps_int U128 _)].
  - unfold enc_enum. destruct (discriminants (map fst vs)) as [ds|]; [|apply grow_panic]. destruct (nth_error ds i) as [dz|]; [|apply grow_panic].
    rewrite nth_error_map. destruct (nth_error vs i) as [[x ts]|]; cbn [option_map snd]; [|apply grow_panic].
    apply grow_l; [apply grow_map, grow_int | apply steps_map, steps_int | apply steps_fields].
Qed.

(* ---- two ways to encode that are the same as long as there are less than [b] octets of room *)
Definition Same (w : bool) (b : nat) (p q : G) : Prop := forall g o, wf_out o -> (room o < b)%nat -> p g o = q g o /\
  match p g o with
  | (_, o1, Ends r) => Step o o1 /\ (w = true -> forall u, r = Ok u -> (output_position o < output_position o1)%nat)
  | (_, _, Waits) => True
  end.

Lemma step_room o o1 : Step o o1 -> (room o1 <= room o)%nat.
Proof. unfold Step, room, output_remaining. lia. Qed.
Lemma grow_room o o1 : Step o o1 -> (output_position o < output_position o1)%nat -> (room o1 < room o)%nat.
Proof. unfold Step, room, output_remaining. lia. Qed.

Lemma same_zero w p q : Same w 0 p q.
Proof. intros g o _ H. lia. Qed.
Lemma same_weak w w' b p q : (w = true -> w' = true) -> Same w' b p q -> Same w b p q.
Proof.
  intros Hi H g o Hw Hr. destruct (H g o Hw Hr) as [E M]. split; [exact E|]. destruct (p g o) as [[g1 o1] [r|]]; [|exact I].
  destruct M as [M1 M2]. split; [exact M1 | intros Hw' u; apply M2, Hi, Hw'].
Qed.
Lemma same_any w b p q : Same w b p q -> Same false b p q.
Proof. apply same_weak. discriminate. Qed.
Lemma same_do w b m : Steps m -> (w = true -> Grow m) -> Same w b (gdo m) (gdo m).
Proof.
  intros H1 H2 g o Hw _. split; [reflexivity|]. unfold gdo. destruct (m o) as [o1 r] eqn:E. split; [exact (H1 _ _ _ Hw E)|].
  intros Hg u ->. exact (H2 Hg _ _ _ Hw E).
Qed.
Lemma same_do0 b m : Steps m -> Same false b (gdo m) (gdo m).
Proof. intros H. apply same_do; [exact H | discriminate]. Qed.
Lemma same_stuck w b : Same w b (gdo (epanic PStuck)) (gdo (epanic PStuck)).
Proof. apply same_do; [apply steps_panic | intros _; apply grow_panic]. Qed.
Lemma same_seq w1 w2 w b p p' q q' : (w = true -> w1 = true \/ w2 = true) -> Same w1 b p p' -> Same w2 b q q' -> Same w b (gseq p q) (gseq p' q').
Proof.
  intros Hi Hp Hq g o Hw Hr. destruct (Hp g o Hw Hr) as [E M]. unfold gseq. rewrite <- E. destruct (p g o) as [[g1 o1] [r|]]; [|split; [reflexivity | exact I]].
  destruct M as [M1 M2]. destruct r as [u|e|x]; [|split; [reflexivity|]; split; [exact M1 | intros _ y Hy; discriminate Hy]..].
  destruct (Hq g1 o1 (step_wf _ _ M1)) as [E' M']; [pose proof (step_room _ _ M1); lia|]. split; [exact E'|].
  destruct (q g1 o1) as [[g2 o2] [r|]]; [|exact I]. destruct M' as [M3 M4]. split; [eapply step_trans; eassumption|].
  intros Hwt y Hy. destruct (Hi Hwt) as [W|W].
  - pose proof (M2 W u eq_refl). unfold Step in *. lia.
  - pose proof (M4 W y Hy). unfold Step in *. lia.
Qed.
Lemma same_later w b p p' q q' : Same true (S b) p p' -> Same false b q q' -> Same w (S b) (gseq p q) (gseq p' q').
Proof.
  intros Hp Hq g o Hw Hr. destruct (Hp g o Hw Hr) as [E M]. unfold gseq. rewrite <- E. destruct (p g o) as [[g1 o1] [r|]]; [|split; [reflexivity | exact I]].
  destruct M as [M1 M2]. destruct r as [u|e|x]; [|split; [reflexivity|]; split; [exact M1 | intros _ y Hy; discriminate Hy]..].
  pose proof (M2 eq_refl u eq_refl) as Hg. pose proof (grow_room _ _ M1 Hg).
  destruct (Hq g1 o1 (step_wf _ _ M1)) as [E' M']; [lia|]. split; [exact E'|].
  destruct (q g1 o1) as [[g2 o2] [r|]]; [|exact I]. destruct M' as [M3 M4]. split; [eapply step_trans; eassumption|].
  intros _ y _. unfold Step in *. lia.
Qed.
Lemma same_map w b f p q : Same w b p q -> Same w b (gmap_err f p) (gmap_err f q).
Proof.
  intros H g o Hw Hr. destruct (H g o Hw Hr) as [E M]. unfold gmap_err. rewrite <- E. split; [reflexivity|].
  destruct (p g o) as [[g1 o1] [[u|e|x]|]]; try exact M. destruct M as [M1 _]. split; [exact M1 | intros _ y Hy; discriminate].
Qed.
Lemma same_items b f f' wrap vs : (forall v, Same false b (f v) (f' v)) -> forall i, Same false b (g_items f wrap i vs) (g_items f' wrap i vs).
Proof.
  intros H. induction vs as [|v vs IH]; intros i; cbn [g_items]; [apply same_do0, steps_ok|].
  eapply (same_seq false false false); [discriminate | apply same_map, H | apply IH].
Qed.
Lemma same_len w b n : Same w b (gdo (emap_err ELen (enc_usize n))) (gdo (emap_err ELen (enc_usize n))).
Proof. apply same_do; [apply steps_map, (steps_int Usize) | intros _; apply grow_map, grow_usize]. Qed.
Lemma same_slice b f f' wrap vs : (forall v, Same false b (f v) (f' v)) -> Same false b (g_slice f wrap vs) (g_slice f' wrap vs).
Proof. intros H. unfold g_slice. eapply (same_seq false false false); [discriminate | apply (same_len false) | apply same_items, H]. Qed.
Lemma later_slice w b f f' wrap vs : (forall v, Same false b (f v) (f' v)) -> Same w (S b) (g_slice f wrap vs) (g_slice f' wrap vs).
Proof. intros H. unfold g_slice. apply same_later; [apply same_len | apply same_items, H]. Qed.
Lemma same_keys b f f' vs : (forall v, Same false b (f v) (f' v)) -> Same false b (g_keys f vs) (g_keys f' vs).
Proof. intros H. induction vs as [|v vs IH]; cbn [g_keys]; [apply same_do0, steps_ok|]. eapply (same_seq false false false); [discriminate | apply H | apply IH]. Qed.
Lemma same_entries b f f' h h' vs : (forall v, Same false b (f v) (f' v)) -> (forall v, Same false b (h v) (h' v)) -> Same false b (g_entries f h vs) (g_entries f' h' vs).
Proof.
  intros H H'. induction vs as [|[k v] vs IH]; cbn [g_entries]; [apply same_do0, steps_ok|].
  eapply (same_seq false false false); [discriminate | apply H |]. eapply (same_seq false false false); [discriminate | apply H' | apply IH].
Qed.
Lemma later_entries b f f' h h' vs : (forall v, Same true (S b) (f v) (f' v)) -> (forall v, Same false b (f v) (f' v)) -> (forall v, Same false b (h v) (h' v)) ->
  Same false (S b) (g_entries f h vs) (g_entries f' h' vs).
Proof.
  intros H H1 H'. destruct vs as [|[k v] vs]; cbn [g_entries]; [apply same_do0, steps_ok|].
  apply same_later; [apply H|]. eapply (same_seq false false false); [discriminate | apply H' | apply same_entries; assumption].
Qed.
Lemma same_fields {A} b (F F' : A -> val -> G) conv ts : Forall (fun t => forall v, Same false b (F t v) (F' t v)) ts ->
  forall vs, Same false b (g_fields (map F ts) conv vs) (g_fields (map F' ts) conv vs).
Proof.
  induction 1 as [|t ts Ht _ IH]; intros [|v vs]; cbn [map g_fields]; try apply same_stuck; [apply same_do0, steps_ok|].
  eapply (same_seq false false false); [discriminate | apply same_map, Ht | apply IH].
Qed.
Lemma same_read w b a f f' : (forall v, Same w b (f v) (f' v)) -> Same w b (g_read a f) (g_read a f').
Proof.
  intros H g o Hw Hr. unfold g_read. destruct (H (g_val (g a)) (more_readers a g) o Hw Hr) as [E M]. rewrite <- E. split; [reflexivity|].
  destruct (f (g_val (g a)) (more_readers a g) o) as [[g1 o1] [r|]]; exact M.
Qed.
Lemma same_refcell w b a f f' : (forall v, Same w b (f v) (f' v)) -> Same w b (g_refcell a f) (g_refcell a f').
Proof.
  intros H g o Hw Hr. unfold g_refcell. destruct (g_borrowed (g a)); [|exact (same_map w b EBadValue _ _ (same_read w b a f f' H) g o Hw Hr)].
  split; [reflexivity|]. split; [apply step_refl, Hw | intros _ u Hu; discriminate].
Qed.
Lemma same_rwlock w b a f f' : (forall v, Same w b (f v) (f' v)) -> Same w b (g_rwlock a f) (g_rwlock a f').
Proof.
  intros H g o Hw Hr. unfold g_rwlock. destruct (g_locked (g a)); [split; [reflexivity | exact I] | exact (same_read w b a f f' H g o Hw Hr)].
Qed.
Lemma same_mutex w b a f f' : (forall v, Same w b (f v) (f' v)) -> Same w b (g_mutex a f) (g_mutex a f').
Proof.
  intros H g o Hw Hr. unfold g_mutex. destruct (g_locked (g a)); [split; [reflexivity | exact I]|].
  destruct (H (g_val (g a)) (acquire a g) o Hw Hr) as [E M]. rewrite <- E. split; [reflexivity|].
  destruct (f (g_val (g a)) (acquire a g) o) as [[g1 o1] [r|]]; exact M.
Qed.
Lemma same_const ch t v b : Same (writes t) b (guard_encode ch t v) (guard_encode ch t v).
Proof.
  intros g o Hw _. split; [reflexivity|]. destruct (guard_encode ch t v g o) as [[g1 o1] [r|]] eqn:E; [|exact I].
  destruct (C126_lemma _ _ _ _ _ _ _ _ E) as (E1 & _). split; [exact (steps_encode _ _ _ _ _ _ Hw E1)|].
  intros W u ->. exact (writes_grow _ _ W _ _ _ _ Hw E1).
Qed.

Section Calls.
  Variables (ch : bool) (b : nat) (call call' : nat -> val -> G).
  Hypothesis Hall : forall k v, Same false b (call k v) (call' k v).

  Lemma rec_same t : forall v, Same false b (rec_encode ch call t v) (rec_encode ch call' t v).
  Proof.
    induction t using rty_ind_strong; intros v0; cbn [rec_encode]; try (destruct v0; try apply same_stuck; fail).
    1: exact (same_any _ _ _ _ (same_const ch t v0 b)).
    1: apply Hall.
    all: destruct v0; try apply same_stuck.
    all: try (apply same_do0; first [apply steps_u8 | exact (steps_u8 0)]).
    all: try (apply IHt).
    all: try (eapply (same_seq false false false); [discriminate | apply same_do0, steps_u8 | first [apply IHt | apply same_map, IHt]]).
    all: try (apply same_fields; assumption).
    all: try (apply same_items; exact IHt).
    all: try (apply same_slice; exact IHt).
    all: try (apply same_keys; exact IHt).
    all: try (apply same_entries; assumption).
    all: try (eapply (same_seq false false false); [discriminate | apply IHt | apply IHt]).
    - destruct v0; try (apply same_refcell; exact IHt); destruct mut_borrowed; first [apply same_do0, steps_error | apply same_map, IHt].
    - destruct v0; try apply IHt. destruct l; [apply same_mutex | apply same_rwlock]; exact IHt.
  Qed.

  Definition early_ok (l : list nat) : Prop := forall k, In k l -> forall v, Same false (S b) (call k v) (call' k v).
  Lemma early_app l l' : early_ok (l ++ l') -> early_ok l /\ early_ok l'.
  Proof. intros H. split; intros k Hk; apply H, in_or_app; auto. Qed.

  Definition later t := early_ok (early t) -> forall v, Same (rwrites t) (S b) (rec_encode ch call t v) (rec_encode ch call' t v).
  Lemma later_fields conv ts : Forall later ts -> early_ok (ahead early ts) ->
    forall vs, Same (existsb rwrites ts) (S b) (g_fields (map (rec_encode ch call) ts) conv vs) (g_fields (map (rec_encode ch call') ts) conv vs).
  Proof.
    induction 1 as [|t ts Ht _ IH]; cbn [ahead existsb]; intros He vs; [destruct vs; cbn [map g_fields]; [apply same_do0, steps_ok | apply same_stuck]|].
    apply early_app in He as [He1 He2]. destruct vs as [|v vs]; cbn [map g_fields]; [apply same_stuck|]. specialize (Ht He1 v).
    destruct (rwrites t) eqn:W.
    - apply same_later; [apply same_map, Ht | apply same_fields]. apply Forall_forall. intros x _. apply rec_same.
    - eapply same_seq; [|apply same_map, Ht | apply (IH He2)]. cbn. auto.
  Qed.
  Lemma existsb_map {A B} (f : B -> bool) (g : A -> B) l : existsb f (map g l) = existsb (fun x => f (g x)) l.
  Proof. induction l as [|x l IH]; cbn; congruence. Qed.

  Lemma rec_later t : later t.
  Proof.
    unfold later. induction t using rty_ind_strong; intros He v0; cbn [rec_encode early] in *.
    1: exact (same_const ch t v0 (S b)).
    1: apply He; left; reflexivity.
    all: destruct v0; try apply same_stuck.
    all: try (apply same_do; [first [apply steps_u8 | exact (steps_u8 0)] | intros _; apply grow_u8]).
    all: try (apply IHt, He).
    all: try (apply same_later; [apply same_do; [apply steps_u8 | intros _; apply grow_u8] | first [apply rec_same | apply same_map, rec_same]]).
    all: try (apply later_slice; apply rec_same).
    all: try (apply same_items; exact (fun v => same_any _ _ _ _ (IHt He v))).
    all: try (apply same_keys; exact (fun v => same_any _ _ _ _ (IHt He v))).
    all: try (eapply same_seq; [|apply (IHt He) | apply (IHt He)]; intros W; left; exact W).
    - unfold rwrites. cbn [inst writes]. rewrite existsb_map. apply later_fields; assumption.
    - change (rwrites (RRefCell t)) with (rwrites t).
      destruct v0; try (apply same_refcell, (IHt He)); destruct mut_borrowed;
        first [apply same_do; [apply steps_error | intros _; apply grow_error] | apply same_map, (IHt He)].
    - change (rwrites (RLock l t)) with (rwrites t). destruct v0; try apply (IHt He). destruct l; [apply same_mutex | apply same_rwlock]; apply (IHt He).
    - apply early_app in He as [He1 He2]. change (rwrites (RHashMap t1 t2)) with false. destruct (rwrites t1) eqn:W.
      + apply later_entries; [intros v; apply (IHt1 He1) | apply rec_same | apply rec_same].
      + apply same_entries; intros v; [apply (IHt1 He1) | exact (same_any _ _ _ _ (IHt2 He2 v))].
  Qed.

  Lemma def_later d v : early_ok (early_def d) -> Same false (S b) (def_encode ch call d v) (def_encode ch call' d v).
  Proof.
    intros He. destruct d as [ts|r vs], v; cbn [def_encode early_def] in *; try apply same_stuck.
    - eapply same_any, later_fields; [|exact He]. apply Forall_forall. intros t _. apply rec_later.
    - unfold g_enum. destruct (discriminants (map fst vs)) as [ds|]; [|apply same_stuck]. destruct (nth_error ds i) as [dz|]; [|apply same_stuck].
      rewrite !nth_error_map. destruct (nth_error vs i) as [[x ts]|]; cbn [option_map snd]; [|apply same_stuck].
      apply same_later; [apply same_do; [apply steps_map, steps_int | intros _; apply grow_map, grow_int]|].
      apply same_fields, Forall_forall. intros t _. apply rec_same.
  Qed.
End Calls.

Lemma nested_same ch defs rank top deeper deeper' : Writing defs rank top -> forall b n m k v,
  (match b with O => 0 | S r => r * (top + 1) + rank k + 1 end <= n)%nat -> (match b with O => 0 | S r => r * (top + 1) + rank k + 1 end <= m)%nat ->
  Same false b (nested ch defs deeper n k v) (nested ch defs deeper' m k v).
Proof.
  intros Hg. induction b as [|b IHb]; [intros; apply same_zero|].
  induction n as [|n IHn]; intros m k v Hn Hm; [lia|]. destruct m as [|m]; [lia|]. cbn [nested]. apply def_later.
  - intros j u. pose proof (Hg j) as [Hj _]. apply IHb; destruct b; nia.
  - intros j Hj u. pose proof (proj2 (Hg k) j Hj). apply IHn; lia.
Qed.

Lemma C128_lemma : forall checks defs rank top k v g o, Writing defs rank top -> output_position o <= output_capacity o ->
  Enough checks defs (output_remaining o * (top + 1) + rank k + 1) k v g o.
Proof.
  intros ch defs rank top k v g o Hg Hw deeper m Hm.
  assert (H : Same false (S (output_remaining o)) (nested ch defs deeper m k v)
    (nested ch defs (fun _ _ => gdo eok) (output_remaining o * (top + 1) + rank k + 1) k v)).
  { apply (nested_same ch defs rank top deeper (fun _ _ => gdo eok) Hg); lia. }
  exact (proj1 (H g o Hw (Nat.lt_succ_diag_r _))).
Qed.

(* ---- the same as Guards.v on the unrolled types *)
Lemma rec_inst ch b call env : (forall k v, Same false b (call k v) (guard_encode ch (env k) v)) ->
  forall t v, Same false b (rec_encode ch call t v) (guard_encode ch (inst env t) v).
Proof.
  intros Hall. induction t using rty_ind_strong; intros v0; cbn [rec_encode inst].
  1: exact (same_any _ _ _ _ (same_const ch t v0 b)).
  1: apply Hall.
  all: destruct v0; cbn [guard_encode encode]; try apply same_stuck.
  all: try (apply same_do0; first [apply steps_u8 | exact (steps_u8 0)]).
  all: try (apply IHt).
  all: try (eapply (same_seq false false false); [discriminate | apply same_do0, steps_u8 | first [apply IHt | apply same_map, IHt]]).
  all: try (apply same_items; exact IHt).
  all: try (apply same_slice; exact IHt).
  all: try (apply same_keys; exact IHt).
  all: try (apply same_entries; assumption).
  all: try (eapply (same_seq false false false); [discriminate | apply IHt | apply IHt]).
  all: try (match goal with l : lock |- _ => destruct l; apply same_stuck end).
  - rewrite map_map. apply (same_fields b (rec_encode ch call) (fun t => guard_encode ch (inst env t))). assumption.
  - destruct v0; try (apply same_refcell; exact IHt); destruct mut_borrowed; first [apply same_do0, steps_error | apply same_map, IHt].
  - destruct l, v0; try apply IHt; [apply same_mutex | apply same_rwlock]; exact IHt.
Qed.
Lemma nested_unroll ch defs b : forall n k v, Same false b (nested ch defs (fun _ => guard_encode ch TInfallible) n k v) (guard_encode ch (unroll defs n k) v).
Proof.
  induction n as [|n IH]; intros k v; [exact (same_any _ _ _ _ (same_const ch TInfallible v b))|]. cbn [nested unroll].
  pose proof (rec_inst ch b _ (unroll defs n) IH) as Hr. destruct (defs k) as [ts|r vs]; cbn [inst_def]; destruct v; cbn [def_encode guard_encode encode]; try apply same_stuck.
  - rewrite map_map. apply (same_fields b (rec_encode ch _) (fun t => guard_encode ch (inst (unroll defs n) t))), Forall_forall. intros t _. apply Hr.
  - replace (map fst (map (fun x => (fst x, map (inst (unroll defs n)) (snd x))) vs)) with (map fst vs) by (rewrite map_map; reflexivity).
    unfold g_enum. destruct (discriminants (map fst vs)) as [ds|]; [|apply same_stuck]. destruct (nth_error ds i) as [dz|]; [|apply same_stuck].
    rewrite !nth_error_map. destruct (nth_error vs i) as [[x ts]|]; cbn [option_map fst snd]; [|apply same_stuck].
    eapply (same_seq false false false); [discriminate | apply same_do0, steps_map, steps_int|]. rewrite map_map.
    apply (same_fields b (rec_encode ch _) (fun t => guard_encode ch (inst (unroll defs n) t))), Forall_forall. intros t _. apply Hr.
Qed.
Lemma C128_model_lemma : forall checks defs n k v g o, output_position o <= output_capacity o ->
  nested checks defs (fun _ => guard_encode checks TInfallible) n k v g o = guard_encode checks (unroll defs n k) v g o.
Proof. intros ch defs n k v g o Hw. exact (proj1 (nested_unroll ch defs (S (room o)) n k v g o Hw (Nat.lt_succ_diag_r _))). Qed.

(* ---- a map that holds itself *)
Lemma self_nested ch m r o : m o = (o, r) -> (forall e, r <> Err e) -> forall n g, (forall a, g_val (g a) = VMap [(VUnit, VWrap self_map)] /\ g_borrowed (g a) = false) ->
  exists g', nested ch map_defs (fun _ _ => gdo m) n 0 self_map g o = (g', o, Ends r).
Proof.
  intros Hm Hr. induction n as [|n IH]; intros g Hg; cbn [nested].
  - unfold gdo. rewrite Hm. eauto.
  - cbn [map_defs def_encode map g_fields self_map rec_encode]. unfold gseq, gmap_err, g_refcell. rewrite (proj2 (Hg 0%Z)). unfold gmap_err, g_read.
    rewrite (proj1 (Hg 0%Z)). cbn [g_entries guard_encode encode]. unfold gseq, gdo, eok.
    destruct (IH (more_readers 0 g)) as (g' & E).
    { intros a. unfold more_readers. destruct (Z.eq_dec a 0) as [->|Hne]; [rewrite put_same; apply Hg | rewrite put_other by exact Hne; apply Hg]. }
    fold self_map. unfold gdo in E. rewrite E. destruct r as [[]|e|x]; [eauto | destruct (Hr e eq_refl) | eauto].
Qed.
Lemma C128_refuted_lemma : forall checks o n, ~ Enough checks map_defs n 0 self_map self_cells o.
Proof.
  intros ch o n H. specialize (H (fun _ _ => gdo (epanic PStuck)) n (le_n n)).
  destruct (self_nested ch (epanic PStuck) (Panic PStuck) o eq_refl ltac:(discriminate) n self_cells) as (g1 & E1); [auto|].
  destruct (self_nested ch eok (Ok tt) o eq_refl ltac:(discriminate) n self_cells) as (g2 & E2); [auto|].
  rewrite E1, E2 in H. discriminate.
Qed.
