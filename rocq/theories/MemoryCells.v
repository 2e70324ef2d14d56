(* Cells of buffers: lemmas for the proofs about SourceMemory.v. *)
From Coq Require Import Lia.
From Verif Require Import Base Streams Utf8 Types Mem SourceNames SourceSyntax SourceMeaning SourceMemory SpecMemory MemoryRules.

Lemma filled_length : forall A (xs : list A), length (filled xs) = length xs. Proof. intros. apply map_length. Qed.
Lemma raw_length : forall A (xs : list (option A)), length (raw xs) = length xs. Proof. intros. apply map_length. Qed.
Lemma filled_app : forall A (xs ys : list A), filled (xs ++ ys) = filled xs ++ filled ys. Proof. intros. apply map_app. Qed.
Lemma raw_app : forall A (xs ys : list (option A)), raw (xs ++ ys) = raw xs ++ raw ys. Proof. intros. apply map_app. Qed.
Lemma raw_filled : forall A (xs : list A), raw (map Some xs) = filled xs. Proof. intros. unfold raw, filled. now rewrite map_map. Qed.
Lemma firstn_filled : forall A n (xs : list A), firstn n (filled xs) = filled (firstn n xs). Proof. intros. unfold filled. apply firstn_map. Qed.
Lemma skipn_filled : forall A n (xs : list A), skipn n (filled xs) = filled (skipn n xs). Proof. intros. unfold filled. apply skipn_map. Qed.
Lemma firstn_raw : forall A n (xs : list (option A)), firstn n (raw xs) = raw (firstn n xs). Proof. intros. unfold raw. apply firstn_map. Qed.
Lemma skipn_raw : forall A n (xs : list (option A)), skipn n (raw xs) = raw (skipn n xs). Proof. intros. unfold raw. apply skipn_map. Qed.
Lemma plain_items_of : forall A (xs : list A), plain_items (map MItem xs) = Some xs.
Proof. induction xs as [|x xs IH]; cbn; [reflexivity|now rewrite IH]. Qed.

(* a part of the cells in the middle *)
Lemma firstn_mid : forall X (pre l : list X) n, firstn (length pre + n) (pre ++ l) = pre ++ firstn n l.
Proof. intros. apply firstn_app_2. Qed.
Lemma skipn_mid : forall X (pre l : list X) n, skipn (length pre + n) (pre ++ l) = skipn n l.
Proof. induction pre as [|x pre IH]; intros; cbn; auto. Qed.
Lemma firstn_in : forall X (l post : list X) n, n <= length l -> firstn n (l ++ post) = firstn n l.
Proof. intros. rewrite firstn_app. replace (n - length l) with 0 by lia. cbn. now rewrite app_nil_r. Qed.
Lemma skipn_in : forall X (l post : list X) n, n <= length l -> skipn n (l ++ post) = skipn n l ++ post.
Proof. intros. rewrite skipn_app. now replace (n - length l) with 0 by lia. Qed.

Lemma mem_read_map : forall A B (f : A -> B) cs n, mem_read (map (option_map f) cs) n = omap f (mem_read cs n).
Proof. intros. unfold mem_read. rewrite nth_error_map. destruct (nth_error cs n) as [[x|]|]; reflexivity. Qed.
Lemma mem_slice_map : forall A B (f : A -> B) cs n a, mem_slice (map (option_map f) cs) a n = omap (map f) (mem_slice cs a n).
Proof.
  induction n as [|n IH]; intros; [reflexivity|]. cbn. rewrite mem_read_map, IH. destruct (mem_read cs a); cbn; [|reflexivity|reflexivity].
  destruct (mem_slice cs (S a) n); reflexivity.
Qed.
Lemma mem_read_mid : forall A (pre l : list (option A)) a, mem_read (pre ++ l) (length pre + a) = mem_read l a.
Proof. induction pre as [|x pre IH]; intros; cbn; auto. apply IH. Qed.
Lemma mem_slice_mid : forall A (pre l : list (option A)) n a, mem_slice (pre ++ l) (length pre + a) n = mem_slice l a n.
Proof. induction n as [|n IH]; intros; [reflexivity|]. cbn. rewrite mem_read_mid. now rewrite <- Nat.add_succ_r, IH. Qed.
Lemma mem_slice_some : forall A (xs : list A) n a post, a + n <= length xs -> mem_slice (map Some xs ++ post) a n = Done (firstn n (skipn a xs)).
Proof.
  induction n as [|n IH]; intros; [reflexivity|]. cbn [mem_slice]. rewrite IH by lia. unfold mem_read.
  rewrite nth_error_app1 by (rewrite map_length; lia). rewrite nth_error_map.
  destruct (nth_error xs a) as [x|] eqn:E; [|apply nth_error_None in E; lia]. cbn [obind omap option_map].
  apply nth_error_split in E. destruct E as (l1 & l2 & -> & <-).
  replace (S (length l1)) with (length l1 + 1) by lia. rewrite skipn_mid.
  rewrite skipn_app, skipn_all, Nat.sub_diag. reflexivity.
Qed.
Lemma filled_some : forall A (xs : list A), filled xs = map Some (map MItem xs). Proof. intros. unfold filled. now rewrite map_map. Qed.
Lemma slice_filled : forall A (pre : list (option (mval A))) xs post a n, a + n <= length xs ->
  mem_slice (pre ++ filled xs ++ post) (length pre + a) n = Done (map MItem (firstn n (skipn a xs))).
Proof. intros. rewrite mem_slice_mid, filled_some, mem_slice_some by (rewrite map_length; lia). now rewrite skipn_map, firstn_map. Qed.
Lemma slice_filled0 : forall A (pre : list (option (mval A))) xs post n, n <= length xs ->
  mem_slice (pre ++ filled xs ++ post) (length pre) n = Done (map MItem (firstn n xs)).
Proof. intros. replace (length pre) with (length pre + 0) by lia. now rewrite slice_filled. Qed.
(* what is stored in the middle *)
Lemma stored_mid : forall A (pre : list (option (mval A))) xs post a ys, a + length ys <= length xs ->
  firstn (length pre + a) (pre ++ filled xs ++ post) ++ filled ys ++ skipn (length pre + a + length ys) (pre ++ filled xs ++ post) =
  pre ++ filled (firstn a xs ++ ys ++ skipn (a + length ys) xs) ++ post.
Proof.
  intros. rewrite <- Nat.add_assoc, firstn_mid, skipn_mid. rewrite firstn_in, skipn_in by (rewrite filled_length; lia).
  rewrite firstn_filled, skipn_filled, !filled_app, <- !app_assoc. reflexivity.
Qed.
Lemma taken_mid : forall A (pre : list (option (mval A))) xs post a n, a + n <= length xs ->
  firstn n (skipn (length pre + a) (pre ++ filled xs ++ post)) = filled (firstn n (skipn a xs)).
Proof.
  intros. rewrite skipn_mid, skipn_in by (rewrite filled_length; lia). rewrite firstn_in by (rewrite skipn_length, filled_length; lia).
  now rewrite skipn_filled, firstn_filled.
Qed.
Lemma taken_mid0 : forall A (pre : list (option (mval A))) xs post n, n <= length xs ->
  firstn n (skipn (length pre) (pre ++ filled xs ++ post)) = filled (firstn n xs).
Proof. intros. replace (length pre) with (length pre + 0) by lia. now rewrite taken_mid. Qed.
Lemma stored_mid0 : forall A (pre : list (option (mval A))) xs post ys n, length ys = n -> n <= length xs ->
  firstn (length pre) (pre ++ filled xs ++ post) ++ filled ys ++ skipn (length pre + n) (pre ++ filled xs ++ post) =
  pre ++ filled (ys ++ skipn n xs) ++ post.
Proof. intros * <- L. pose proof (stored_mid A pre xs post 0 ys L) as E. rewrite !Nat.add_0_r in E. exact E. Qed.
Lemma slice_plain : forall A (xs : list A) a n, a + n <= length xs -> mem_slice (filled xs) a n = Done (map MItem (firstn n (skipn a xs))).
Proof. intros. pose proof (slice_filled A [] xs [] a n H) as E. cbn [app length Nat.add] in E. now rewrite app_nil_r in E. Qed.
Lemma read_plain : forall A (xs : list A) n x, nth_error xs n = Some x -> mem_read (filled xs) n = Done (MItem x).
Proof. intros. unfold mem_read, filled. now rewrite nth_error_map, H. Qed.
Lemma filled_repeat : forall A (x : A) n, filled (repeat x n) = repeat (Some (MItem x)) n.
Proof. induction n as [|n IH]; cbn; [reflexivity|]. unfold filled in IH. now rewrite IH. Qed.
Lemma slice_raw : forall A (cs : list (option A)) a n, mem_slice (raw cs) a n = omap (map MItem) (mem_slice cs a n).
Proof. intros. apply mem_slice_map. Qed.
Lemma read_raw : forall A (cs : list (option A)) n, mem_read (raw cs) n = omap MItem (mem_read cs n).
Proof. intros. apply mem_read_map. Qed.
Lemma raw_uninit : forall A n, raw (uninit A n) = repeat None n.
Proof. unfold raw, uninit. induction n as [|n IH]; cbn; [reflexivity|now rewrite IH]. Qed.
Lemma write_raw : forall A (cs : list (option A)) n x, mem_write (raw cs) n (MItem x) = omap raw (mem_write cs n x).
Proof.
  intros. unfold mem_write. rewrite raw_length, firstn_raw, skipn_raw. destruct (n <? length cs); [|reflexivity]. cbn. now rewrite raw_app.
Qed.
Lemma read_out : forall A (cs : list (option A)) n, length cs <= n -> mem_read cs n = Undefined UOutOfBounds.
Proof. intros. unfold mem_read. now rewrite (proj2 (nth_error_None cs n)). Qed.
Lemma write_mid : forall A (done buf : list (option A)) b j z, length done = j -> mem_write (done ++ b :: buf) j z = Done (done ++ Some z :: buf).
Proof.
  intros * <-. unfold mem_write. rewrite app_length. cbn [length]. rewrite (proj2 (Nat.ltb_lt _ _)) by lia. rewrite firstn_app, firstn_all, Nat.sub_diag. cbn [firstn].
  rewrite app_nil_r. replace (S (length done)) with (length done + 1) by lia. now rewrite skipn_mid.
Qed.
Lemma ends_done : forall A S X (r : mres A S) (x : X) done, r = done x -> ends r (Done x) done. Proof. intros. assumption. Qed.
Lemma ends_step : forall A S X Y (r : mres A S) (o : out X) g (f : X -> out Y) done,
  ends r o g -> (forall x, o = Done x -> ends (g x) (f x) done) -> ends r (obind o f) done.
Proof. intros. destruct o; cbn in *; [subst; now apply H0|assumption|assumption]. Qed.
Lemma ends_map : forall A S X Y (r : mres A S) (o : out X) g (f : X -> Y) done,
  ends r o g -> (forall x, o = Done x -> g x = done (f x)) -> ends r (omap f o) done.
Proof. intros. destruct o; cbn in *; [subst; now apply H0|assumption|assumption]. Qed.
Lemma ends_step_in : forall A S X Y (r : mres A S) (o : out X) g k (f : X -> out Y) done,
  ends r o g -> (forall x, o = Done x -> ends (returned (g x) k) (f x) done) -> ends (returned r k) (obind o f) done.
Proof.
  intros. destruct o; cbn in *; [subst; now apply H0| |]; destruct r as [m e]; cbn in *; subst; reflexivity.
Qed.
Lemma ends_map_in : forall A S X Y (r : mres A S) (o : out X) g k (f : X -> Y) done,
  ends r o g -> (forall x, o = Done x -> returned (g x) k = done (f x)) -> ends (returned r k) (omap f o) done.
Proof. intros. unfold omap. eapply ends_step_in; [eassumption|]. intros. now apply H0. Qed.
(* [usize::MAX] *)
Lemma sub_wraps : forall A S (c : mctx A S) m k, k_checks c = false -> sub_usize c 0 1 m k = k (Z.to_nat (2 ^ 64 - 1)).
Proof. intros. unfold sub_usize. cbn [Nat.leb]. rewrite H. reflexivity. Qed.

Global Hint Rewrite filled_length raw_length app_length firstn_length skipn_length map_length repeat_length count_length : sizes.
Ltac sizes := autorewrite with sizes in *; cbn [length] in *; lia.
(* conditions that follow from what is known *)
Ltac settle :=
  match goal with
  | |- context [(?a <=? ?b)%nat] => first [rewrite (proj2 (Nat.leb_le a b)) by sizes | rewrite (proj2 (Nat.leb_gt a b)) by sizes]
  | |- context [(?a <? ?b)%nat] => first [rewrite (proj2 (Nat.ltb_lt a b)) by sizes | rewrite (proj2 (Nat.ltb_ge a b)) by sizes]
  | |- context [(?a =? ?b)%nat] => first [rewrite (proj2 (Nat.eqb_eq a b)) by sizes | rewrite (proj2 (Nat.eqb_neq a b)) by sizes]
  | |- context [add_usize ?c ?a ?b ?m ?k] => rewrite (@add_ok _ _ c a b m k) by sizes
  | |- context [sub_usize ?c ?a ?b ?m ?k] => rewrite (@sub_ok _ _ c a b m k) by sizes
  | |- context [mem_slice (_ ++ filled _ ++ _) (_ + _) _] => rewrite slice_filled by sizes
  | |- context [mem_slice (_ ++ filled _ ++ _) (length _) _] => rewrite slice_filled0 by sizes
  | |- context [mem_slice (filled _) _ _] => rewrite slice_plain by sizes
  | |- context [plain_items (map MItem _)] => rewrite plain_items_of
  | |- context [go_on (Done _) _ _] => cbn [go_on]
  end; cbv beta iota zeta; cbn [andb].
(* until the program has a choice that nothing known settles *)
Ltac go := repeat first [step | settle].
(* such a choice *)
Ltac known_as E :=
  lazymatch type of E with
  | (_ <=? _)%nat = true => apply Nat.leb_le in E
  | (_ <=? _)%nat = false => apply Nat.leb_gt in E
  | (_ <? _)%nat = true => apply Nat.ltb_lt in E
  | (_ <? _)%nat = false => apply Nat.ltb_ge in E
  | (_ =? _)%nat = true => apply Nat.eqb_eq in E
  | (_ =? _)%nat = false => apply Nat.eqb_neq in E
  | _ => idtac
  end.
Ltac branch E :=
  lazymatch goal with |- ?t = _ => let b := focus t in destruct b eqn:E | |- ends ?t _ _ => let b := focus t in destruct b eqn:E end; cbv beta iota zeta; known_as E.
(* the literal is the one expected *)
Ltac the_text :=
  match goal with
  | |- context [list_eq_dec ?a ?b ?c] => let n := fresh in destruct (list_eq_dec a b c) as [_|n]; [|exfalso; apply n; reflexivity]
  end; cbv beta iota zeta.
