(* SpecBuild.Builds decided by computation, and what the text of the crate comes to. *)
From Coq Require Import String List Bool Lia PeanoNat.
From Verif Require Import SpecBuild SourceBuild.
Import ListNotations.
Local Open Scope string_scope.
Local Open Scope list_scope.

(* `&&`, `||`, `existsb` and `forallb` that stop early when they are computed *)
Local Notation "a &&& b" := (if a then b else false) (at level 40, left associativity).
Local Notation "a ||| b" := (if a then true else b) (at level 50, left associativity).
Fixpoint some {A} (f : A -> bool) (l : list A) : bool := match l with [] => false | x :: l => f x ||| some f l end.
Fixpoint every {A} (f : A -> bool) (l : list A) : bool := match l with [] => true | x :: l => f x &&& every f l end.
Lemma and_true (a b : bool) : a &&& b = true <-> a = true /\ b = true.
Proof. destruct a, b; intuition congruence. Qed.
Lemma or_true (a b : bool) : a ||| b = true <-> a = true \/ b = true.
Proof. destruct a, b; intuition congruence. Qed.
Lemma some_exists {A} (f : A -> bool) l : some f l = true <-> exists x, In x l /\ f x = true.
Proof. rewrite <- existsb_exists. induction l as [|x l IH]; cbn; [easy|]. destruct (f x); easy. Qed.
Lemma every_forall {A} (f : A -> bool) l : every f l = true <-> forall x, In x l -> f x = true.
Proof. rewrite <- forallb_forall. induction l as [|x l IH]; cbn; [easy|]. destruct (f x); easy. Qed.

Fixpoint path_eqb (p q : list string) : bool :=
  match p, q with [], [] => true | x :: p, y :: q => (x =? y) &&& path_eqb p q | _, _ => false end.
Lemma path_eqb_eq p q : path_eqb p q = true <-> p = q.
Proof.
  revert q; induction p as [|x p IH]; intros [|y q]; cbn; try (split; congruence).
  rewrite and_true, String.eqb_eq, IH. split; [intros [-> ->]; easy|injection 1; easy].
Qed.

Section Decide.
Context (b : build) (k : krate).

Definition on_b (cs : list cfg) : bool := every (holds b) cs.
Lemma on_b_on cs : on_b cs = true <-> on b cs.
Proof. unfold on_b, on. apply every_forall. Qed.

Definition is_file (m : list string) : bool := some (fun f => path_eqb (path f) m) (files k).
Lemma is_file_in m : is_file m = true <-> In m (map path (files k)).
Proof.
  unfold is_file. rewrite some_exists, in_map_iff. split; intros (f & A & B); exists f.
  - apply path_eqb_eq in B. easy.
  - rewrite path_eqb_eq. easy.
Qed.

(* the modules that are there: `n` rounds of following `mod` *)
Definition children (ms : list (list string)) : list (list string) :=
  flat_map (fun f => if some (path_eqb (path f)) ms
                     then flat_map (fun e => match e with Child _ cs n => if on_b cs then [path f ++ [n]] else [] | _ => [] end) (entries f) else []) (files k).
Fixpoint rounds (n : nat) (ms : list (list string)) : list (list string) := match n with O => ms | S n => ms ++ rounds n (children ms) end.

Lemma children_in ms m : In m (children ms) <-> exists f line cs n, In f (files k) /\ In (path f) ms /\ In (Child line cs n) (entries f) /\ on b cs /\ m = path f ++ [n].
Proof.
  unfold children. rewrite in_flat_map. split.
  - intros (f & F & H). destruct (some _ ms) eqn:E; [|easy]. apply some_exists in E. destruct E as (q & Q & E). apply path_eqb_eq in E. subst q.
    apply in_flat_map in H. destruct H as (e & I & H). destruct e as [| line cs n | |]; try easy. destruct (on_b cs) eqn:O; [|easy]. destruct H as [<-|[]].
    apply on_b_on in O. exists f, line, cs, n. easy.
  - intros (f & line & cs & n & F & Q & I & O & ->). exists f. split; [easy|].
    replace (some (path_eqb (path f)) ms) with true by (symmetry; apply some_exists; exists (path f); rewrite path_eqb_eq; easy).
    apply in_flat_map. exists (Child line cs n). split; [easy|]. apply on_b_on in O. rewrite O. now left.
Qed.

Lemma rounds_present n : forall ms, (forall m, In m ms -> Present b k m) -> forall m, In m (rounds n ms) -> Present b k m.
Proof.
  induction n as [|n IH]; cbn; intros ms A m H; [auto|]. apply in_app_iff in H. destruct H as [H|H]; [auto|].
  apply (IH (children ms)); [|easy]. intros q Q. apply children_in in Q. destruct Q as (f & line & cs & x & F & P & I & O & ->).
  apply (P_child b k f line cs x); auto.
Qed.

(* a chain of `mod` of length n ends in the n-th round *)
Lemma present_depth m : Present b k m -> In m (rounds (length m) [[]]).
Proof.
  assert (G : forall n ms m, In m ms -> In m (rounds n ms)) by (intros [|n] ms q Q; cbn; [easy|apply in_or_app; now left]).
  assert (C : forall n ms q f line cs x, In f (files k) -> q = path f -> In q (rounds n ms) -> In (Child line cs x) (entries f) -> on b cs -> In (q ++ [x]) (rounds (S n) ms)).
  { induction n as [|n IH]; intros ms q f line cs x F -> Q I O; cbn [rounds] in *.
    - apply in_or_app. right. apply children_in. exists f, line, cs, x. easy.
    - apply in_app_iff in Q. apply in_or_app. right. destruct Q as [Q|Q].
      + apply in_or_app. left. apply children_in. exists f, line, cs, x. easy.
      + apply (IH (children ms) (path f) f line cs x); auto. }
  induction 1 as [|f line cs n F P IH I O]; [now left|].
  rewrite app_length, Nat.add_comm. cbn [length Nat.add]. apply (C _ _ _ f line cs n); auto.
Qed.

Definition depth : nat := fold_right Nat.max 0 (map (fun f => length (path f)) (files k)).
Lemma depth_le f : In f (files k) -> length (path f) <= depth.
Proof.
  unfold depth. induction (files k) as [|g l IH]; [easy|]. cbn. intros [->|H]; [lia|]. specialize (IH H). lia.
Qed.

Lemma rounds_more n d : forall ms m, In m (rounds n ms) -> In m (rounds (n + d) ms).
Proof.
  induction n as [|n IH]; cbn; intros ms m H.
  - destruct d; cbn; [easy|]. apply in_or_app. now left.
  - apply in_app_iff in H. apply in_or_app. destruct H; [now left|right; auto].
Qed.

Definition all_present : list (list string) := rounds depth [[]].
Lemma all_present_in f : In f (files k) -> (some (path_eqb (path f)) all_present = true <-> Present b k (path f)).
Proof.
  intros F. rewrite some_exists. split.
  - intros (q & Q & E). apply path_eqb_eq in E. subst q. apply (rounds_present depth [[]]) in Q; [easy|]. intros m [<-|[]]. constructor.
  - intros P. exists (path f). rewrite path_eqb_eq. split; [|easy]. apply present_depth in P. pose proof (depth_le f F).
    unfold all_present. replace depth with (length (path f) + (depth - length (path f))) by lia. now apply rounds_more.
Qed.

(* names *)
Fixpoint gives_b (n : nat) (m : list string) (x : string) : bool :=
  match n with
  | O => false
  | S n =>
      some (fun f => path_eqb (path f) m &&& some (fun e =>
        match e with
        | Item _ cs y | Child _ cs y | Use _ cs _ y true => (y =? x) &&& on_b cs
        | Use _ _ _ _ false => false
        | Glob _ cs p => on_b cs &&& gives_b n (m ++ p) x
        end) (entries f)) (files k)
  end.

Lemma gives_b_sound n : forall m x, gives_b n m x = true -> Gives b k m x.
Proof.
  induction n as [|n IH]; intros m x; cbn [gives_b]; [easy|]. rewrite some_exists. intros (f & F & H). apply and_true in H. destruct H as [E H].
  apply path_eqb_eq in E. subst m. apply some_exists in H. destruct H as (e & I & H).
  destruct e as [line cs y|line cs y|line cs p y [] |line cs p]; try easy; apply and_true in H; destruct H as [A B].
  - apply String.eqb_eq in A. apply on_b_on in B. subst y. eapply G_item; eauto.
  - apply String.eqb_eq in A. apply on_b_on in B. subst y. eapply G_child; eauto.
  - apply String.eqb_eq in A. apply on_b_on in B. subst y. eapply G_use; eauto.
  - apply on_b_on in A. apply IH in B. eapply G_glob; eauto.
Qed.

Definition globs_down : bool := every (fun f => every (fun e => match e with Glob _ _ [] => false | _ => true end) (entries f)) (files k).

Lemma gives_b_complete m x : globs_down = true -> Gives b k m x -> forall n, depth < n + length m -> gives_b n m x = true.
Proof.
  intros D. unfold globs_down in D. rewrite every_forall in D.
  assert (W : forall f n x e, In f (files k) -> depth < n + length (path f) -> In e (entries f) ->
    (forall n', n = S n' -> match e with
        | Item _ cs y | Child _ cs y | Use _ cs _ y true => (y =? x) &&& on_b cs
        | Use _ _ _ _ false => false
        | Glob _ cs p => on_b cs &&& gives_b n' (path f ++ p) x
        end = true) -> gives_b n (path f) x = true).
  { intros f n y e F L I H. pose proof (depth_le f F). destruct n as [|n]; [lia|]. cbn [gives_b]. apply some_exists. exists f. split; [easy|].
    apply and_true. split; [now apply path_eqb_eq|]. apply some_exists. exists e. split; [easy|]. now apply H. }
  induction 1 as [f line cs n F I O|f line cs n F I O|f line cs p n F I O|f line cs p n F I O G IH]; intros n0 L;
    (eapply W; [exact F|exact L|exact I|]); intros n' ->; apply and_true.
  1, 2, 3: split; [apply String.eqb_refl|now apply on_b_on].
  split; [now apply on_b_on|]. apply IH. specialize (D f F). rewrite every_forall in D. specialize (D _ I). destruct p; [easy|].
  rewrite app_length. cbn. lia.
Qed.

Context (down : globs_down = true).

Definition gives (m : list string) (x : string) : bool := gives_b (S depth) m x.
Lemma gives_in m x : gives m x = true <-> Gives b k m x.
Proof. split; [apply gives_b_sound|]. intros G. apply gives_b_complete; auto. lia. Qed.

Definition has (m : list string) (x : string) : bool :=
  gives m x ||| some (fun f => path_eqb (path f) m &&& some (fun e => match e with Use _ cs _ y _ => (y =? x) &&& on_b cs | _ => false end) (entries f)) (files k).
Lemma has_in m x : has m x = true <-> Has b k m x.
Proof.
  unfold has, Has. rewrite or_true, gives_in, some_exists. split; (intros [G|H]; [now left|right]).
  - destruct H as (f & F & H). apply and_true in H. destruct H as [E H]. apply path_eqb_eq in E. apply some_exists in H. destruct H as (e & I & H).
    destruct e as [| |line cs p y u|]; try easy. apply and_true in H. destruct H as [A B]. apply String.eqb_eq in A. apply on_b_on in B. subst y.
    exists f, line, cs, p, u. easy.
  - destruct H as (f & line & cs & p & u & F & E & I & O). exists f. split; [easy|]. apply and_true. split; [now apply path_eqb_eq|].
    apply some_exists. exists (Use line cs p x u). split; [easy|]. apply and_true. split; [apply String.eqb_refl|now apply on_b_on].
Qed.

Fixpoint reaches (m p : list string) : bool :=
  match p with [] => true | x :: rest => gives m x &&& (negb (is_file (m ++ [x])) ||| reaches (m ++ [x]) rest) end.
Lemma implb_in m (A : bool) (B : Prop) : (A = true <-> B) -> (negb (is_file m) ||| A = true <-> (In m (map path (files k)) -> B)).
Proof.
  intros E. pose proof (is_file_in m). destruct (is_file m); cbn; [|split; [|easy]].
  - rewrite E. tauto.
  - intros _ C. apply H in C. discriminate.
Qed.
Lemma reaches_in p : forall m, reaches m p = true <-> Reaches b k m p.
Proof.
  induction p as [|x p IH]; intros m; cbn [reaches Reaches]; [easy|]. rewrite and_true, gives_in, (implb_in _ _ _ (IH _)). easy.
Qed.

Definition member (x : string) (l : list string) : bool := some (String.eqb x) l.
Lemma member_in x l : member x l = true <-> In x l.
Proof.
  unfold member. rewrite some_exists. split.
  - intros (y & I & E). apply String.eqb_eq in E. now subst.
  - intros I. exists x. split; [easy|apply String.eqb_refl].
Qed.

Definition resolves (m p : list string) : bool :=
  match p with
  | [] => true
  | x :: rest =>
      if (x =? "crate") || (x =? "oct") then reaches [] rest
      else some (fun e => (x =? fst e) &&& (on_b (snd e) &&& on_b (library p))) (externs k)
           ||| (member x prelude ||| (has m x &&& (negb (is_file (m ++ [x])) ||| reaches (m ++ [x]) rest)))
  end.
Lemma resolves_in m p : resolves m p = true <-> Resolves b k m p.
Proof.
  destruct p as [|x rest]; cbn [resolves Resolves]; [easy|]. destruct ((x =? "crate") || (x =? "oct"))%bool; [apply reaches_in|].
  rewrite !or_true, member_in, and_true, has_in, (implb_in _ _ _ (reaches_in rest (m ++ [x]))), some_exists.
  assert (E : (exists e, In e (externs k) /\ ((x =? fst e) &&& (on_b (snd e) &&& on_b (library (x :: rest)))) = true)
    <-> exists cs, In (x, cs) (externs k) /\ on b cs /\ on b (library (x :: rest))).
  { split.
    - intros ((y & cs) & I & H). cbn [fst snd] in H. rewrite !and_true, !on_b_on in H. destruct H as (A & B & C). apply String.eqb_eq in A. subst y. exists cs. easy.
    - intros (cs & I & B & C). exists (x, cs). cbn [fst snd]. rewrite !and_true, !on_b_on. split; [easy|]. split; [apply String.eqb_refl|easy]. }
  rewrite E. tauto.
Qed.

Definition declared (t v : string) : bool :=
  negb (some (fun f => some (fun x => match x with Variant _ _ t' v' => (t' =? t) &&& (v' =? v) end) (variants f)) (files k))
  ||| some (fun f => some (fun x => match x with Variant _ cs t' v' => (t' =? t) &&& ((v' =? v) &&& on_b cs) end) (variants f)) (files k).
Lemma declared_in t v : declared t v = true <-> Declared b k t v.
Proof.
  unfold declared, Declared.
  assert (A : some (fun f => some (fun x => match x with Variant _ _ t' v' => (t' =? t) &&& (v' =? v) end) (variants f)) (files k) = true
    <-> exists f line cs, In f (files k) /\ In (Variant line cs t v) (variants f)).
  { rewrite some_exists. split.
    - intros (f & F & H). apply some_exists in H. destruct H as ([line cs t' v'] & I & H). apply and_true in H. rewrite !String.eqb_eq in H.
      destruct H as [-> ->]. exists f, line, cs. easy.
    - intros (f & line & cs & F & I). exists f. split; [easy|]. apply some_exists. exists (Variant line cs t v). rewrite !String.eqb_refl. easy. }
  assert (B : some (fun f => some (fun x => match x with Variant _ cs t' v' => (t' =? t) &&& ((v' =? v) &&& on_b cs) end) (variants f)) (files k) = true
    <-> exists f line cs, In f (files k) /\ In (Variant line cs t v) (variants f) /\ on b cs).
  { rewrite some_exists. split.
    - intros (f & F & H). apply some_exists in H. destruct H as ([line cs t' v'] & I & H). rewrite !and_true, !String.eqb_eq, on_b_on in H.
      destruct H as (-> & -> & O). exists f, line, cs. easy.
    - intros (f & line & cs & F & I & O). exists f. split; [easy|]. apply some_exists. exists (Variant line cs t v). rewrite !String.eqb_refl. cbn.
      apply on_b_on in O. easy. }
  rewrite or_true, negb_true_iff, <- not_true_iff_false, A, B. split; [tauto|]. intros H.
  destruct (some (fun f => some (fun x => match x with Variant _ _ t' v' => (t' =? t) &&& (v' =? v) end) (variants f)) (files k)) eqn:E.
  - right. apply H. now apply A.
  - left. intros C. apply A in C. discriminate.
Qed.

Lemma negb_in (x : bool) (P : Prop) : (x = true <-> P) -> (negb x = true <-> ~ P).
Proof. intros <-. destruct x; cbn; intuition congruence. Qed.

(* the paths that do not resolve *)
Definition fault_list : list (list string * list string) :=
  flat_map (fun f => if some (path_eqb (path f)) all_present then
    flat_map (fun e => match e with Use _ cs q _ _ => if on_b cs &&& negb (resolves (path f) q) then [(path f, q)] else []
                                  | Glob _ cs q => if on_b cs &&& negb (reaches (path f) q) then [(path f, q)] else [] | _ => [] end) (entries f) ++
    flat_map (fun x => match x with
                       | Mention _ cs q => if on_b cs &&& (negb (resolves (path f) q) ||| match q with [t; v] => negb (declared t v) | _ => false end) then [(path f, q)] else []
                       | Own _ cs t v => if on_b cs &&& negb (declared t v) then [(path f, [t; v])] else []
                       end) (mentions f) else []) (files k).

Lemma in_if {A} (c : bool) (x y : A) : In x (if c then [y] else []) -> c = true /\ y = x.
Proof. destruct c; [intros [H|[]]; easy|easy]. Qed.

Lemma fault_list_only m p : In (m, p) fault_list -> Fault b k m p.
Proof.
  unfold fault_list. rewrite in_flat_map. intros (f & F & H). destruct (some (path_eqb (path f)) all_present) eqn:P; [|easy]. apply (all_present_in f F) in P.
  apply in_app_iff in H. destruct H as [H|H]; apply in_flat_map in H; destruct H as (x & I & H).
  - destruct x as [| |line cs q n u|line cs q]; try easy;
      apply in_if in H; destruct H as [E H]; injection H as <- <-; rewrite and_true, on_b_on in E; destruct E as [O E].
    + rewrite (negb_in _ _ (resolves_in _ _)) in E. eapply F_use; eauto.
    + rewrite (negb_in _ _ (reaches_in _ _)) in E. eapply F_glob; eauto.
  - destruct x as [line cs q|line cs t v];
      apply in_if in H; destruct H as [E H]; injection H as <- <-; rewrite and_true, on_b_on in E; destruct E as [O E].
    + rewrite or_true, (negb_in _ _ (resolves_in _ _)) in E. destruct E as [E|E]; [eapply F_mention; eauto|].
      destruct q as [|t [|v [|? ?]]]; try easy. rewrite (negb_in _ _ (declared_in _ _)) in E. eapply F_variant; eauto.
    + rewrite (negb_in _ _ (declared_in _ _)) in E. eapply F_own; eauto.
Qed.

Lemma fault_list_all m p : Fault b k m p -> In (m, p) fault_list.
Proof.
  intros H. unfold fault_list. apply in_flat_map.
  destruct H as [f line cs p n u F P I O H|f line cs p F P I O H|f line cs p F P I O H|f line cs t v F P I O H|f line cs t v F P I O H];
    exists f; (split; [exact F|]); apply (all_present_in f F) in P; rewrite P; apply in_or_app; [left|left|right|right|right]; apply in_flat_map; apply on_b_on in O.
  - exists (Use line cs p n u). split; [easy|]. rewrite O. apply (negb_in _ _ (resolves_in _ _)) in H. rewrite H. now left.
  - exists (Glob line cs p). split; [easy|]. rewrite O. apply (negb_in _ _ (reaches_in _ _)) in H. rewrite H. now left.
  - exists (Mention line cs p). split; [easy|]. rewrite O. apply (negb_in _ _ (resolves_in _ _)) in H. rewrite H. now left.
  - exists (Mention line cs [t; v]). split; [easy|]. rewrite O. apply (negb_in _ _ (declared_in _ _)) in H. rewrite H. destruct (negb (resolves _ _)); now left.
  - exists (Own line cs t v). split; [easy|]. rewrite O. apply (negb_in _ _ (declared_in _ _)) in H. rewrite H. now left.
Qed.
Lemma dec (x : bool) (P : Prop) : (x = true <-> P) -> P \/ ~ P.
Proof. intros E. destruct x; [left; now apply E|right; intros H; apply E in H; discriminate]. Qed.

Lemma no_faults : fault_list = [] <-> Builds b k.
Proof.
  split.
  - intros N f F P.
    assert (C : forall m p, ~ Fault b k m p) by (intros m p H; apply fault_list_all in H; rewrite N in H; easy).
    refine (conj _ (conj _ (conj _ _))).
    + intros line cs p n u I O. destruct (dec _ _ (resolves_in (path f) p)) as [H|H]; [easy|]. exfalso. eapply C, F_use; eauto.
    + intros line cs p I O. destruct (dec _ _ (reaches_in p (path f))) as [H|H]; [easy|]. exfalso. eapply C, F_glob; eauto.
    + intros line cs p I O. split.
      * destruct (dec _ _ (resolves_in (path f) p)) as [H|H]; [easy|]. exfalso. eapply C, F_mention; eauto.
      * intros t v ->. destruct (dec _ _ (declared_in t v)) as [H|H]; [easy|]. exfalso. eapply C, F_variant; eauto.
    + intros line cs t v I O. destruct (dec _ _ (declared_in t v)) as [H|H]; [easy|]. exfalso. eapply C, F_own; eauto.
  - intros B. destruct fault_list as [|[m p] l] eqn:E; [easy|]. exfalso.
    assert (H : Fault b k m p) by (apply fault_list_only; rewrite E; now left). clear E.
    destruct H as [f line cs p n u F P I O H|f line cs p F P I O H|f line cs p F P I O H|f line cs t v F P I O H|f line cs t v F P I O H];
      destruct (B f F P) as (U & G & M & W).
    + apply H. eapply U; eauto.
    + apply H. eapply G; eauto.
    + apply H. eapply M; eauto.
    + apply H. eapply M; eauto.
    + apply H. eapply W; eauto.
Qed.
End Decide.

(* every build *)
Definition all_builds : list build :=
  let two := [true; false] in
  flat_map (fun x1 => flat_map (fun x2 => flat_map (fun x3 => flat_map (fun x4 => flat_map (fun x5 => flat_map (fun x6 => flat_map (fun x7 =>
    map (fun x8 => Build x1 x2 x3 x4 x5 x6 x7 x8) two) two) two) two) two) two) two) two.
Lemma all_builds_all b : In b all_builds.
Proof.
  destruct b as [x1 x2 x3 x4 x5 x6 x7 x8].
  assert (T : forall x, In x [true; false]) by (intros []; cbn; auto).
  unfold all_builds. cbn zeta. repeat (apply in_flat_map; eexists; split; [apply T|]). apply in_map_iff. eexists. split; [reflexivity|apply T].
Qed.

Lemma src_down : globs_down src_crate = true.
Proof. vm_compute. reflexivity. Qed.

(* what each build of the crate comes to *)
Definition covered (b : build) (fs : list (list string * list string)) : bool :=
  every (fun x => some (fun t => holds b (fst (fst t)) &&& (path_eqb (snd (fst t)) (fst x) &&& path_eqb (snd t) (snd x))) fault_table) fs
  &&& every (fun t => negb (holds b (fst (fst t))) ||| some (fun x => path_eqb (snd (fst t)) (fst x) &&& path_eqb (snd t) (snd x)) fs) fault_table.
Definition nothing {A} (l : list A) : bool := match l with [] => true | _ => false end.
Lemma src_computed :
  every (fun b => let fs := fault_list b src_crate in
     Bool.eqb (nothing fs) (alloc b && std b) &&& (covered b fs &&& Bool.eqb (gives b src_crate [] "Slot") (alloc b))) all_builds = true.
Proof. vm_compute. reflexivity. Qed.

Lemma src_build b :
  Bool.eqb (nothing (fault_list b src_crate)) (alloc b && std b) = true /\ covered b (fault_list b src_crate) = true /\ Bool.eqb (gives b src_crate [] "Slot") (alloc b) = true.
Proof.
  pose proof src_computed as H. rewrite every_forall in H. specialize (H b (all_builds_all b)). cbv beta zeta in H. rewrite !and_true in H. exact H.
Qed.

Lemma C123_exact_lemma b : Builds b src_crate <-> alloc b = true /\ std b = true.
Proof.
  destruct (src_build b) as [H _]. apply Bool.eqb_prop in H. rewrite <- (no_faults b src_crate src_down), <- andb_true_iff, <- H.
  destruct (fault_list b src_crate); cbn; split; congruence.
Qed.

Lemma C123_faults_lemma b m p : Fault b src_crate m p <-> exists c, In (c, m, p) fault_table /\ holds b c = true.
Proof.
  destruct (src_build b) as (_ & C & _). unfold covered in C. rewrite and_true, !every_forall in C. destruct C as [A B]. split.
  - intros F. apply (fault_list_all b src_crate src_down) in F. specialize (A _ F). cbv beta in A. apply some_exists in A.
    destruct A as (((c & m') & p') & I & A). cbn [fst snd] in A. rewrite !and_true, !path_eqb_eq in A. destruct A as (O & -> & ->). exists c. easy.
  - intros (c & I & O). specialize (B _ I). cbn [fst snd] in B. rewrite O in B. cbn [negb] in B. apply some_exists in B. destruct B as ((m' & p') & J & B).
    cbn [fst snd] in B. rewrite and_true, !path_eqb_eq in B. destruct B as [-> ->]. now apply (fault_list_only b src_crate src_down).
Qed.

Lemma C123_slot_lemma b : Gives b src_crate [] "Slot" <-> alloc b = true.
Proof.
  destruct (src_build b) as (_ & _ & H). apply Bool.eqb_prop in H. rewrite <- (gives_in b src_crate src_down), H. easy.
Qed.

(* no condition says `not` *)
Fixpoint plain (c : cfg) : bool := match c with On _ _ => true | All l | Any l => forallb plain l | Not _ => false end.

Lemma holds_more b b' : includes b b' -> forall c, plain c = true -> holds b c = true -> holds b' c = true.
Proof.
  intros L. fix IH 1. intros [x v|l|l|c]; cbn [plain holds].
  - intros _. apply L.
  - induction l as [|c l IL]; cbn; [easy|]. rewrite !andb_true_iff. intros [A B] [C D]. split; [now apply IH|now apply IL].
  - induction l as [|c l IL]; cbn; [easy|]. rewrite !andb_true_iff, !orb_true_iff. intros [A B] [C|C]; [left; now apply IH|right; now apply IL].
  - discriminate.
Qed.

Lemma src_plain : every (fun f => every (every plain) (conditions f)) (files src_crate) = true.
Proof. vm_compute. reflexivity. Qed.

Lemma C123_adds_lemma b b' : includes b b' ->
  (forall f cs, In f (files src_crate) -> In cs (conditions f) -> on b cs -> on b' cs) /\
  (forall m, Present b src_crate m -> Present b' src_crate m) /\
  (forall m n, Gives b src_crate m n -> Gives b' src_crate m n).
Proof.
  intros L.
  assert (A : forall f cs, In f (files src_crate) -> In cs (conditions f) -> on b cs -> on b' cs).
  { intros f cs F I O c C. pose proof src_plain as P. rewrite every_forall in P. specialize (P f F). rewrite every_forall in P. specialize (P cs I).
    rewrite every_forall in P. apply (holds_more b b' L); auto. }
  assert (E : forall f e, In f (files src_crate) -> In e (entries f) -> on b (match e with Item _ cs _ | Child _ cs _ | Use _ cs _ _ _ | Glob _ cs _ => cs end)
    -> on b' (match e with Item _ cs _ | Child _ cs _ | Use _ cs _ _ _ | Glob _ cs _ => cs end)).
  { intros f e F I. apply (A f _ F). unfold conditions. apply in_or_app. left. apply in_map_iff. exists e. easy. }
  refine (conj A (conj _ _)).
  - induction 1 as [|f line cs n F P IH I O]; [constructor|]. eapply P_child; eauto. exact (E f _ F I O).
  - induction 1 as [f line cs n F I O|f line cs n F I O|f line cs p n F I O|f line cs p n F I O G IH].
    + eapply G_item; eauto. exact (E f _ F I O).
    + eapply G_child; eauto. exact (E f _ F I O).
    + eapply G_use; eauto. exact (E f _ F I O).
    + eapply G_glob; eauto. exact (E f _ F I O).
Qed.
