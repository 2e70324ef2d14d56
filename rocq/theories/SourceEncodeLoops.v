From Coq Require Import Lia.
From Verif Require Import Base Streams Utf8 Types Traits Encode Decode Sized SourceNames SourceSyntax SourceMeaning SourceEncode SourceDecode SourceSizes SourceSizedStr SourceSizedSlice SourceRun SourceTactics SourceEncodeProofs.
Local Open Scope Z_scope.
(* one item after another *)
Definition write_step (f : val -> E) (wrap : nat -> eerr -> eerr) (x : nat * val) (o : output) : output + output * res eerr unit :=
  match f (snd x) o with
  | (o', Ok _) => inl o'
  | (o', Err e) => inr (o', Err (wrap (fst x) e))
  | (o', Panic p) => inr (o', Panic p)
  end.
Lemma iter_write : forall f wrap vs j o,
  match iter (write_step f wrap) (combine (seq j (length vs)) vs) o with inl o' => (o', Ok tt) | inr a => a end = enc_items f wrap j vs o.
Proof.
  induction vs as [|v vs IH]; intros j o; [reflexivity|]. cbn [length seq combine iter enc_items]. unfold write_step at 1, eseq, emap_err. cbn [fst snd].
  destruct (f v o) as [o' [?|?|?]]; [apply IH|reflexivity|reflexivity].
Qed.
Definition key_write (f : val -> E) (x : val) (o : output) : output + output * res eerr unit :=
  match f x o with
  | (o', Ok _) => inl o'
  | (o', Err e) => inr (o', Err e)
  | (o', Panic p) => inr (o', Panic p)
  end.
Lemma iter_key_write : forall f vs o,
  match iter (key_write f) vs o with inl o' => (o', Ok tt) | inr a => a end = enc_keys f vs o.
Proof.
  induction vs as [|v vs IH]; intros o; [reflexivity|]. cbn [iter enc_keys]. unfold key_write at 1, eseq.
  destruct (f v o) as [o' [?|?|?]]; [apply IH|reflexivity|reflexivity].
Qed.
Definition entry_write (f g : val -> E) (x : val * val) (o : output) : output + output * res eerr unit :=
  match f (fst x) o with
  | (o', Ok _) =>
    match g (snd x) o' with
    | (o'', Ok _) => inl o''
    | (o'', Err e) => inr (o'', Err e)
    | (o'', Panic p) => inr (o'', Panic p)
    end
  | (o', Err e) => inr (o', Err e)
  | (o', Panic p) => inr (o', Panic p)
  end.
Lemma iter_entry_write : forall f g vs o,
  match iter (entry_write f g) vs o with inl o' => (o', Ok tt) | inr a => a end = enc_entries f g vs o.
Proof.
  induction vs as [|[k v] vs IH]; intros o; [reflexivity|]. cbn [iter enc_entries]. unfold entry_write at 1, eseq. cbn [fst snd].
  destruct (f k o) as [o' [?|?|?]]; [|reflexivity|reflexivity]. destruct (g v o') as [o'' [?|?|?]]; [apply IH|reflexivity|reflexivity].
Qed.
Lemma forall_combine : forall (P : val -> Prop) vs j, Forall P vs -> Forall (fun x => P (snd x)) (combine (seq j (length vs)) vs).
Proof. intros P vs j H. revert j. induction H as [|v vs H _ IH]; intros j; cbn; constructor; [exact H|apply IH]. Qed.
Lemma forall_tail : forall A S B (P : A -> Prop) (step : A -> S -> S + B) x xs s s', Forall P (x :: xs) -> step x s = inl s' -> Forall P xs.
Proof. intros. inversion H. assumption. Qed.

(* the loop over the items; [h] is the output before it *)
Ltac write_loop c o t wrap W :=
  rewrite enumerate_map;
  match goal with
  | |- finish_encode ?o0 (for_each ?b ?p (map ?pr ?xs) ?e ?h ?k) = _ =>
    refine (eq_trans (for_each_iter (nat * val) output _ (finish_encode o0) b p pr e (fun o => [OOutput o]) (write_step (encode c t) wrap)
                        (fun x s => (id_v, RVal t (snd x)) :: (id_i, RInt (Some Usize) (Z.of_nat (fst x))) :: e)
                        (fun ys _ => Forall (fun x => wt t (snd x)) ys) _
                        (forall_tail _ _ _ _ _) (fun _ _ => eq_refl) xs o k (forall_combine _ _ _ W)) _)
  end.
Section S.
Variable (checks : bool) (enc : ty -> val -> E).
Notation ok t := (forall v o, wt t v -> encode_with checks enc t v o = encode checks t v o).
Notation Agree := (AgreeE checks enc).
Lemma e_array : forall t n, Agree t -> ok (TArray t n).
Proof.
  start. destruct H0 as [_ W]. write_loop checks o t EItem W.
  - intros [j v] xs s kb kc I. inversion_clear I. cbn [snd] in *. go_in. rewrite H by assumption. unfold write_step. cbn [fst snd].
    destruct (encode checks t v s) as [? [[]|?|?]]; go; [reflexivity|finish; rewrite Nat2Z.id; reflexivity|finish; reflexivity].
  - rewrite <- iter_write. destruct (iter _ _ o) as [o'|a]; finish; reflexivity.
Qed.
Definition Lengths : Prop := forall z o, enc (TInt Usize) (VInt z) o = enc_usize z o.
Lemma e_slice : forall t, Lengths -> Agree t -> ok (TSlice t).
Proof.
  unfold Lengths. start. rewrite H. unfold enc_usize. destruct ((0 <=? Z.of_nat (length vs)) && (Z.of_nat (length vs) <? 65536)) eqn:E; unfold andb in E; rewrite E; [|finish; reflexivity].
  destruct (enc_num_writing 2 (Z.of_nat (length vs)) o) as [o'|o' p]; [|finish; reflexivity]. go. write_loop checks o' t EItem H1.
  - intros [j v] xs s kb kc I. inversion_clear I. cbn [snd] in *. go_in. rewrite H0 by assumption. unfold write_step. cbn [fst snd].
    destruct (encode checks t v s) as [? [[]|?|?]]; go; [reflexivity|finish; rewrite Nat2Z.id; reflexivity|finish; reflexivity].
  - rewrite <- iter_write. destruct (iter _ _ o') as [o2|a]; finish; reflexivity.
Qed.
Lemma e_list : forall t, Lengths -> Agree t -> ok (TLinked t).
Proof.
  unfold Lengths. start. rewrite H. unfold enc_usize. destruct ((0 <=? Z.of_nat (length vs)) && (Z.of_nat (length vs) <? 65536)) eqn:E; unfold andb in E; rewrite E; [|finish; reflexivity].
  destruct (enc_num_writing 2 (Z.of_nat (length vs)) o) as [o'|o' p]; [|finish; reflexivity]. go. write_loop checks o' t EItemTuple H1.
  - intros [j v] xs s kb kc I. inversion_clear I. cbn [snd] in *. go_in. rewrite H0 by assumption. unfold write_step. cbn [fst snd].
    destruct (encode checks t v s) as [? [[]|?|?]]; go; [reflexivity|finish; rewrite Nat2Z.id; reflexivity|finish; reflexivity].
  - rewrite <- iter_write. destruct (iter _ _ o') as [o2|a]; finish; reflexivity.
Qed.
Ltac whole := intros; match goal with W : wt _ ?v |- _ => destruct v; cbn [wt] in W; try contradiction end;
  let rhs := fresh "rhs" in let Q := fresh "Q" in match goal with |- _ = ?r => remember r as rhs eqn:Q end; unfold AgreeE in *; go;
  match goal with H : forall v o, wt _ v -> _ |- context [enc ?u ?w ?o] => rewrite H by (cbn [wt]; tauto) end;
  match goal with |- context [encode ?c ?t ?w ?o] => change (rhs = encode c t w o) in Q end;
  rewrite <- Q; clear Q; destruct rhs as [? [[]|?|?]]; finish; reflexivity.
Lemma e_vec : forall t, Agree (TSlice t) -> ok (TVec t). Proof. whole. Qed.
Lemma e_sized_slice : forall t n, Agree (TSlice t) -> ok (TSizedSlice t n). Proof. whole. Qed.
Lemma e_string : Agree TStr -> ok TString. Proof. whole. Qed.
Lemma e_sized_str : forall n, Agree TStr -> ok (TSizedStr n). Proof. whole. Qed.
Lemma e_cstring : Agree TCStr -> ok TCString. Proof. whole. Qed.
Lemma items_octets : forall c bs j o, enc_items (encode c (TInt U8)) EItem j (map (fun b => VInt (b2z b)) bs) o = enc_items (fun b => enc_u8 (b2z b)) EItem j bs o.
Proof.
  induction bs as [|b bs IH]; intros j o; [reflexivity|]. cbn [map enc_items]. unfold eseq, emap_err. change (encode c (TInt U8) (VInt (b2z b)) o) with (enc_u8 (b2z b) o).
  destruct (enc_u8 (b2z b) o) as [o' [?|?|?]]; [apply IH|reflexivity|reflexivity].
Qed.
Lemma slice_octets : forall c bs o, encode c (TSlice (TInt U8)) (VSeq (map (fun b => VInt (b2z b)) bs)) o = enc_bytes bs o.
Proof.
  intros c bs o. change (encode c (TSlice (TInt U8)) (VSeq (map (fun b => VInt (b2z b)) bs)) o) with (enc_slice (encode c (TInt U8)) EItem (map (fun b => VInt (b2z b)) bs) o).
  unfold enc_bytes, enc_slice. rewrite map_length. unfold eseq. destruct (emap_err ELen (enc_usize (Z.of_nat (length bs))) o) as [o' [?|?|?]]; [|reflexivity|reflexivity].
  apply items_octets.
Qed.
Lemma octets_wt : forall bs, wt (TSlice (TInt U8)) (VSeq (map (fun b => VInt (b2z b)) bs)).
Proof. intros bs. cbn [wt]. induction bs as [|b bs IH]; cbn; constructor; [|exact IH]. change (0 <= b2z b < 256). apply b2z_range. Qed.
Lemma e_str : Agree (TSlice (TInt U8)) -> ok TStr.
Proof. start. rewrite H by apply octets_wt. rewrite slice_octets. destruct (enc_bytes bs o) as [? [[]|?|?]]; finish; reflexivity. Qed.
Lemma e_cstr : Agree (TSlice (TInt U8)) -> ok TCStr.
Proof. start. rewrite H by apply octets_wt. rewrite slice_octets. destruct (enc_bytes bs o) as [? [[]|?|?]]; finish; reflexivity. Qed.
Lemma e_map : forall k v, Agree k -> Agree v -> ok (THashMap k v).
Proof.
  start. destruct H1 as [_ W].
  match goal with
  | |- finish_encode ?o0 (for_each ?b ?p (map ?pr ?xs) ?e ?h ?k0) = _ =>
    refine (eq_trans (for_each_iter (val * val) output _ (finish_encode o0) b p pr e (fun o => [OOutput o]) (entry_write (encode checks k) (encode checks v))
                        (fun x s => (id_value, RVal v (snd x)) :: (id_key, RVal k (fst x)) :: e)
                        (fun ys _ => Forall (fun z => wt k (fst z) /\ wt v (snd z)) ys) _
                        (forall_tail _ _ _ _ _) (fun _ _ => eq_refl) xs o k0 W) _)
  end.
  - intros [x y] xs s kb kc I. inversion_clear I. cbn [fst snd] in *. go_in. rewrite H by tauto. unfold entry_write. cbn [fst snd].
    destruct (encode checks k x s) as [s' [[]|?|?]]; go; [|finish; reflexivity|finish; reflexivity].
    rewrite H0 by tauto. destruct (encode checks v y s') as [? [[]|?|?]]; go; [reflexivity|finish; reflexivity|finish; reflexivity].
  - rewrite <- iter_entry_write. destruct (iter _ _ o) as [o'|a]; finish; reflexivity.
Qed.
Lemma e_set : forall k, Agree k -> ok (THashSet k).
Proof.
  start. destruct H0 as [_ W].
  match goal with
  | |- finish_encode ?o0 (for_each ?b ?p (map ?pr ?xs) ?e ?h ?k0) = _ =>
    refine (eq_trans (for_each_iter val output _ (finish_encode o0) b p pr e (fun o => [OOutput o]) (key_write (encode checks k))
                        (fun x s => (id_key, RVal k x) :: e)
                        (fun ys _ => Forall (wt k) ys) _
                        (forall_tail _ _ _ _ _) (fun _ _ => eq_refl) xs o k0 W) _)
  end.
  - intros x xs s kb kc I. inversion_clear I. go_in. rewrite H by assumption. unfold key_write.
    destruct (encode checks k x s) as [s' [[]|?|?]]; go; [reflexivity|finish; reflexivity|finish; reflexivity].
  - rewrite <- iter_key_write. destruct (iter _ _ o) as [o'|a]; finish; reflexivity.
Qed.
Lemma e_tuple : forall ts, (0 < length ts <= 12)%nat -> Forall Agree ts -> ok (TTuple ts).
Proof.
  intros ts L F v o W. destruct v; try contradiction. unfold AgreeE in F. cbn [wt] in W.
  do 13 try (destruct ts as [|? ts]; [|inversion_clear F as [|? ? ?H F']; rename F' into F]).
  all: try (exfalso; cbn in L; lia).
  all: cbn [map all2] in W; do 13 try (destruct vs as [|? vs]; [try contradiction|try (destruct W as [? W])]); try contradiction.
  all: cbn [encode map enc_fields]; clear L F W.
  all: go.
   all: repeat (match goal with H : forall v o, wt _ v -> _ = _ |- _ => rewrite H by assumption end;
               match goal with |- context [match encode ?c ?t ?v ?i with _ => _ end] => destruct (encode c t v i) as [? [[]|?|?]] end; go; [|finish; reflexivity|finish; reflexivity]).
   all: finish; reflexivity.
Qed.
End S.
