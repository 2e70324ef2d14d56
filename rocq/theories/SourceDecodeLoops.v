From Coq Require Import Lia.
From Verif Require Import Base Streams Utf8 Types Traits Encode Decode Sized SourceNames SourceSyntax SourceMeaning SourceEncode SourceDecode SourceSizes SourceSizedStr SourceSizedSlice SourceRun SourceTactics SourceDecodeProofs.
Local Open Scope Z_scope.
(* one item after another *)
Definition item_step (f : D val) (j : nat) (s : input * list val) : input * list val + input * res derr val :=
  match f (fst s) with
  | (i', Ok v) => inl (i', snd s ++ [v])
  | (i', Err e) => inr (i', Err (DItem j e))
  | (i', Panic p) => inr (i', Panic p)
  end.
Lemma iter_items : forall f n j i acc,
  iter (item_step f) (seq j n) (i, acc) =
  match dec_items f n j i with
  | (i', Ok vs) => inl (i', acc ++ vs)
  | (i', Err e) => inr (i', Err e)
  | (i', Panic p) => inr (i', Panic p)
  end.
Proof.
  induction n as [|n IH]; intros j i acc; cbn [seq iter dec_items].
  - unfold dok. rewrite app_nil_r. reflexivity.
  - unfold item_step at 1, dbind, dmap_err, dmap, dbind, dok. cbn [fst snd]. destruct (f i) as [i' [v|e|p]]; [|reflexivity|reflexivity].
    rewrite IH. destruct (dec_items f n (S j) i') as [i'' [vs|e|p]]; [|reflexivity|reflexivity]. rewrite <- app_assoc. reflexivity.
Qed.
Lemma dec_items_length : forall f n j i i' (vs : list val), dec_items f n j i = (i', Ok vs) -> length vs = n.
Proof.
  induction n as [|n IH]; intros j i i' vs H; cbn [dec_items] in H.
  - inversion H. reflexivity.
  - unfold dbind, dmap_err, dmap, dbind, dok in H. destruct (f i) as [i1 [v|e|p]]; try discriminate.
    destruct (dec_items f n (S j) i1) as [i2 [ws|e|p]] eqn:E; try discriminate. inversion H; subst. cbn. f_equal. exact (IH _ _ _ _ E).
Qed.
(* the next item goes behind those before it *)
Definition in_order (n : nat) (xs : list nat) (s : input * list val) : Prop := exists j, xs = seq j (n - j) /\ length (snd s) = j /\ (j <= n)%nat.
Lemma in_order_start : forall n i, in_order n (seq 0 n) (i, []).
Proof. intros n i. exists O. rewrite Nat.sub_0_r. repeat split. lia. Qed.
Lemma in_order_head : forall n x xs s, in_order n (x :: xs) s -> x = length (snd s) /\ (x < n)%nat.
Proof.
  intros n x xs s (j & E & L & B). destruct (n - j)%nat eqn:D; [discriminate|]. cbn in E. injection E as E1 E2. subst. split; lia.
Qed.
Lemma in_order_next : forall f n x xs s s', in_order n (x :: xs) s -> item_step f x s = inl s' -> in_order n xs s'.
Proof.
  intros f n x xs s s' (j & E & L & B) H. destruct (n - j)%nat eqn:D; [discriminate|]. cbn in E. injection E as E1 E2. subst.
  unfold item_step in H. destruct (f (fst s)) as [i' [v|e|p]]; inversion H; subst. exists (S (length (snd s))). cbn [snd].
  rewrite app_length. cbn [length]. repeat split; [f_equal; lia|lia|lia].
Qed.


(* a loop that decodes the items of a collection; [mk] is the memory between two rounds *)
Ltac items_loop z T i t i0 mk bx :=
  match goal with
  | |- finish_decode _ _ (for_each ?b ?p (map ?pr ?xs) ?e ?h ?k) = _ =>
    refine (eq_trans (for_each_iter nat (input * list val) _ (finish_decode T i) b p pr e mk (item_step (decode t)) (bx e) (in_order z) _
                        (in_order_next (decode t) z) (fun _ _ => eq_refl) xs (i0, []) k (in_order_start z i0)) _);
    [| rewrite iter_items; cbn [app]; unfold dmap, dbind, dok; pose proof (dec_items_length (decode t) z 0 i0) as L;
       destruct (dec_items (decode t) z 0 i0) as [? [?|?|?]]; [specialize (L _ _ eq_refl)|reflexivity|reflexivity]]
  end.

Lemma enumerate_seq : forall (f : nat -> rval) n, enumerate 0 (map f (seq 0 n)) = map (fun j => RTup [RInt (Some Usize) (Z.of_nat j); f j]) (seq 0 n).
Proof. intros f n. rewrite enumerate_map, seq_length, combine_seq, map_map. reflexivity. Qed.
(* keys of a set *)
Definition key_step (f : D val) (j : nat) (s : input * list val) : input * list val + input * res derr val :=
  match f (fst s) with
  | (i', Ok v) => inl (i', set_insert v (snd s))
  | (i', Err e) => inr (i', Err (DItem j e))
  | (i', Panic p) => inr (i', Panic p)
  end.
Lemma iter_keys : forall f n j i acc,
  iter (key_step f) (seq j n) (i, acc) =
  match dec_keys f n j acc i with
  | (i', Ok vs) => inl (i', vs)
  | (i', Err e) => inr (i', Err e)
  | (i', Panic p) => inr (i', Panic p)
  end.
Proof.
  induction n as [|n IH]; intros j i acc; cbn [seq iter dec_keys]; [reflexivity|].
  unfold key_step at 1, dbind, dmap_err, dmap, dbind, dok. cbn [fst snd]. destruct (f i) as [i' [v|e|p]]; [|reflexivity|reflexivity].
  rewrite IH. destruct (dec_keys f n (S j) _ i') as [i'' [vs|e|p]]; reflexivity.
Qed.
(* entries of a map *)
Definition entry_step (f g : D val) (j : nat) (s : input * list (val * val)) : input * list (val * val) + input * res derr val :=
  match f (fst s) with
  | (i', Ok v) =>
    match g i' with
    | (i'', Ok w) => inl (i'', map_insert v w (snd s))
    | (i'', Err e) => inr (i'', Err (DItem j e))
    | (i'', Panic p) => inr (i'', Panic p)
    end
  | (i', Err e) => inr (i', Err (DItem j e))
  | (i', Panic p) => inr (i', Panic p)
  end.
Lemma iter_entries : forall f g n j i acc,
  iter (entry_step f g) (seq j n) (i, acc) =
  match dec_entries f g n j acc i with
  | (i', Ok vs) => inl (i', vs)
  | (i', Err e) => inr (i', Err e)
  | (i', Panic p) => inr (i', Panic p)
  end.
Proof.
  induction n as [|n IH]; intros j i acc; cbn [seq iter dec_entries]; [reflexivity|].
  unfold entry_step at 1, dbind, dmap_err, dmap, dbind, dok. cbn [fst snd]. destruct (f i) as [i' [v|e|p]]; [|reflexivity|reflexivity].
  destruct (g i') as [i2 [w|e|p]]; [|reflexivity|reflexivity].
  rewrite IH. destruct (dec_entries f g n (S j) _ i2) as [i'' [vs|e|p]]; reflexivity.
Qed.
Section S.
Variable (checks : bool) (size : ty -> option N) (dec : ty -> D val).
Notation ok t := (forall i, decode_with checks size dec t i = decode t i).
Lemma d_vec : forall t, Agree dec (TInt Usize) -> Agree dec t -> ok (TVec t).
Proof.
  enter. rewrite H. go. split1; [|finish; reflexivity]. go. unfold range_list. rewrite Z.sub_0_r, <- part_nil.
  items_loop (Z.to_nat z) (TVec t) i t i0 (fun s : input * list val => [OInput (fst s); OCells (part (Z.to_nat z) (map (RVal t) (snd s))) 0])
    (fun (e : env) (x : nat) (s : input * list val) => (id_i, RInt (Some Usize) (0 + Z.of_nat x)) :: e).
  - intros x xs [j vs] kb kc I. apply in_order_head in I. destruct I as [I J]. cbn [snd fst] in *. go_in. rewrite H0. unfold item_step. cbn [fst snd].
    destruct (decode t j) as [? [?|?|?]]; go; [|finish; rewrite Z.add_0_l, Nat2Z.id; reflexivity|finish; reflexivity].
    rewrite Z.add_0_l, Nat2Z.id, part_length by (rewrite map_length; lia). replace (0 + x <? Z.to_nat z)%nat with true by (symmetry; apply Nat.ltb_lt; lia). 
    rewrite part_store by (try rewrite map_length; lia). rewrite map_app. reflexivity.
  - go. rewrite part_length by (rewrite map_length; lia). rewrite part_full by (rewrite map_length; exact L). rewrite Nat.leb_refl. finish.
    rewrite firstn_all2 by (rewrite !map_length; lia). rewrite filled_some, plains_vals. reflexivity.
Qed.
Lemma d_list : forall t, Agree dec (TInt Usize) -> Agree dec t -> ok (TLinked t).
Proof.
  enter. rewrite H. go. split1; [|finish; reflexivity]. go. unfold range_list. rewrite Z.sub_0_r.
  items_loop (Z.to_nat z) (TLinked t) i t i0 (fun s : input * list val => [OInput (fst s); OList (map (RVal t) (snd s))])
    (fun (e : env) (x : nat) (s : input * list val) => (id_i, RInt (Some Usize) (0 + Z.of_nat x)) :: e).
  - intros x xs [j vs] kb kc _. go_in. rewrite H0. unfold item_step. cbn [fst snd].
    destruct (decode t j) as [? [?|?|?]]; go; [rewrite map_app; reflexivity|finish; rewrite Z.add_0_l, Nat2Z.id; reflexivity|finish; reflexivity].
  - go. finish. rewrite plains_vals. reflexivity.
Qed.
Lemma d_array : forall n t, Agree dec t -> ok (TArray t n).
Proof.
  enter. rewrite Nat2Z.id, enumerate_seq, <- part_nil.
  items_loop n (TArray t n) i t i (fun s : input * list val => [OInput (fst s); OCells (part n (map (RVal t) (snd s))) n])
    (fun (e : env) (x : nat) (s : input * list val) => (id_item, RPtr 1 x) :: (id_i, RInt (Some Usize) (Z.of_nat x)) :: e).
  - intros x xs [j vs] kb kc I. apply in_order_head in I. destruct I as [I J]. cbn [snd fst] in *. go_in. rewrite H. unfold item_step. cbn [fst snd].
    destruct (decode t j) as [? [?|?|?]]; go; [|finish; rewrite Nat2Z.id; reflexivity|finish; reflexivity].
    rewrite part_length by (rewrite map_length; lia). replace (x <? n)%nat with true by (symmetry; apply Nat.ltb_lt; lia). 
    rewrite part_store by (try rewrite map_length; lia). rewrite map_app. reflexivity.
  - rewrite part_full by (rewrite map_length; exact L). go. finish. rewrite firstn_all2 by (rewrite !map_length; lia). rewrite filled_some, plains_vals. reflexivity.
Qed.
Lemma d_sized_slice : forall n t, Agree dec (TInt Usize) -> Agree dec t -> ok (TSizedSlice t n).
Proof.
  enter. rewrite H. go. split1; [|finish; reflexivity]. go. rewrite Nat2Z.id. rewrite enumerate_seq. rewrite <- part_nil.
  replace (Z.of_nat n <? z) with (n <? Z.to_nat z)%nat by (apply eq_true_iff_eq; rewrite Nat.ltb_lt, Z.ltb_lt; lia).
  destruct (Nat.ltb_spec n (Z.to_nat z)); [finish; rewrite Nat2Z.id; reflexivity|].
  items_loop n (TSizedSlice t n) i t i0 (fun s : input * list val => [OInput (fst s); OCells (part n (map (RVal t) (snd s))) n])
    (fun (e : env) (x : nat) (s : input * list val) => (id_slot, RPtr 1 x) :: (id_i, RInt (Some Usize) (Z.of_nat x)) :: e).
  - intros x xs [j vs] kb kc I. apply in_order_head in I. destruct I as [I J]. cbn [snd fst] in *. go_in. rewrite H0. unfold item_step. cbn [fst snd].
    destruct (decode t j) as [? [?|?|?]]; go; [|finish; rewrite Nat2Z.id; reflexivity|finish; reflexivity].
    rewrite part_length by (rewrite map_length; lia). replace (x <? n)%nat with true by (symmetry; apply Nat.ltb_lt; lia). 
    rewrite part_store by (try rewrite map_length; lia). rewrite map_app. reflexivity.
  - rewrite part_full by (rewrite map_length; exact L). go. finish. rewrite !firstn_map, filled_some, plains_vals. reflexivity.
Qed.
Lemma d_map : forall k v, Agree dec (TInt Usize) -> Agree dec k -> Agree dec v -> ok (THashMap k v).
Proof.
  enter. rewrite H. go. split1; [|finish; reflexivity]. go. unfold range_list. rewrite Z.sub_0_r.
  match goal with
  | |- finish_decode _ _ (for_each ?b ?p (map ?pr ?xs) ?e ?h ?k0) = _ =>
    refine (eq_trans (for_each_iter nat (input * list (val * val)) _ (finish_decode (THashMap k v) i) b p pr e
                        (fun s => [OInput (fst s); OMap (snd s)]) (entry_step (decode k) (decode v))
                        (fun x s => (id_i, RInt (Some Usize) (0 + Z.of_nat x)) :: e) (fun _ _ => True) _
                        (fun _ _ _ _ _ _ => Logic.I) (fun _ _ => eq_refl) xs (i0, []) k0 Logic.I) _)
  end.
  - intros x xs [j vs] kb kc _. go_in. rewrite H0. unfold entry_step. cbn [fst snd].
    destruct (decode k j) as [i1 [?|?|?]]; go; [|finish; rewrite Z.add_0_l, Nat2Z.id; reflexivity|finish; reflexivity].
    rewrite H1. destruct (decode v i1) as [? [?|?|?]]; go; [reflexivity|finish; rewrite Z.add_0_l, Nat2Z.id; reflexivity|finish; reflexivity].
  - rewrite iter_entries. destruct (dec_entries (decode k) (decode v) (Z.to_nat z) 0 [] i0) as [? [?|?|?]]; go; [|reflexivity|reflexivity]. finish. reflexivity.
Qed.
Lemma d_set : forall k, Agree dec (TInt Usize) -> Agree dec k -> ok (THashSet k).
Proof.
  enter. rewrite H. go. split1; [|finish; reflexivity]. go. unfold range_list. rewrite Z.sub_0_r.
  match goal with
  | |- finish_decode _ _ (for_each ?b ?p (map ?pr ?xs) ?e ?h ?k0) = _ =>
    refine (eq_trans (for_each_iter nat (input * list val) _ (finish_decode (THashSet k) i) b p pr e
                        (fun s => [OInput (fst s); OSet (snd s)]) (key_step (decode k))
                        (fun x s => (id_i, RInt (Some Usize) (0 + Z.of_nat x)) :: e) (fun _ _ => True) _
                        (fun _ _ _ _ _ _ => Logic.I) (fun _ _ => eq_refl) xs (i0, []) k0 Logic.I) _)
  end.
  - intros x xs [j vs] kb kc _. go_in. rewrite H0. unfold key_step. cbn [fst snd].
    destruct (decode k j) as [i1 [?|?|?]]; go; [reflexivity|finish; rewrite Z.add_0_l, Nat2Z.id; reflexivity|finish; reflexivity].
  - rewrite iter_keys. destruct (dec_keys (decode k) (Z.to_nat z) 0 [] i0) as [? [?|?|?]]; go; [|reflexivity|reflexivity]. finish. reflexivity.
Qed.
Lemma d_sized_str : forall n, Agree dec (TInt Usize) -> ok (TSizedStr n).
Proof.
  enter. rewrite H. go. split1; [|finish; reflexivity]. go. taken; [|finish; reflexivity]. go.
  replace (Z.of_nat n <? Z.of_nat (length bs)) with (n <? length bs)%nat by (apply eq_true_iff_eq; rewrite Nat.ltb_lt, Z.ltb_lt; lia).
  destruct (Nat.ltb_spec n (length bs)); [finish; rewrite !Nat2Z.id; reflexivity|].
  destruct (from_utf8 bs) as [j|] eqn:U. { rewrite Nat2Z.id. destruct (nth_error bs j); finish; rewrite ?Nat2Z.id, ?z2b_b2z; reflexivity. }
  replace (Z.of_nat (length bs) <=? Z.of_nat n) with true by (symmetry; apply Z.leb_le; lia).
  rewrite !Nat2Z.id. rewrite repeat_length, Nat.leb_refl. replace (0 + length bs <=? n)%nat with true by (symmetry; apply Nat.leb_le; lia). 
  destruct checks; go; finish; rewrite !Nat2Z.id, firstn_all; cbn [firstn app]; rewrite octets_at_cells_more by reflexivity; reflexivity.
Qed.
Lemma d_tuple : forall ts, (0 < length ts <= 12)%nat -> Forall (Agree dec) ts -> ok (TTuple ts).
Proof.
  intros ts L F. unfold Agree in F.
  do 13 try (destruct ts as [|? ts]; [|inversion_clear F as [|? ? ?H F']; rename F' into F]).
  all: try (exfalso; cbn in L; lia).
  all: intros i; cbn [decode map dec_fields]; clear L F.
  all: go.
  all: repeat (match goal with H : forall i, _ = _ |- _ => rewrite H end; match goal with |- context [match decode ?t ?i with _ => _ end] => destruct (decode t i) as [? [?|?|?]] end; go; [|finish; reflexivity|finish; reflexivity]).
  all: finish; reflexivity.
Qed.
End S.
