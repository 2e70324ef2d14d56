(* What rustc decides from the definitions of types alone: which of them may cross threads, may be moved once pinned, and may cross a caught panic. The
   definitions are those in SourceTypes.v. Definitions only. *)
From Verif Require Import Base Types SourceNames SourceSyntax SourceMeaning SourceEncode SourceDecode SourceSizes SourceErrors SourceDiscriminant
  SourceOutput SourceInput SourceSlot SourceSizedSlice SourceSizedIter SourceSizedStr SourceHeaders SourceTypes SpecHeaders.

(* the traits that hold of a type if they hold of its fields *)
(* core: marker::{Send, Sync, Unpin}, panic::{UnwindSafe, RefUnwindSafe} *)
Inductive auto := Send | Sync | Unpin | UnwindSafe | RefUnwindSafe.
Definition auto_name (k : auto) : name :=
  match k with Send => id_Send | Sync => id_Sync | Unpin => id_Unpin | UnwindSafe => id_UnwindSafe | RefUnwindSafe => id_RefUnwindSafe end.

(* `impl Send for X`, anywhere: then it is not decided from the fields *)
(* (rustc: auto traits) *)
Definition is_impl_of (tr : name) (im : impl) : bool :=
  match im_trait im with Some p => match last_name p with Some x => name_eqb tr x | None => false end | None => false end.
Definition claimed (k : auto) : bool :=
  existsb (is_impl_of (auto_name k))
    (src_encode_impls ++ src_decode_impls ++ src_sizes_impls ++ src_errors_impls ++ src_discriminant_impls ++ src_output_impls ++ src_input_impls ++
     src_slot_impls ++ src_sizedslice_impls ++ src_sizediter_impls ++ src_sizedstr_impls).

(* the type of the crate that has this name *)
(* (rustc: names) *)
Definition definition (x : name) : option tydef := find (fun d => name_eqb x (td_name d)) src_types.

(* the type of a field, with the arguments in place of the parameters; `D::Error` becomes `<A as Encode>::Error` *)
(* (rustc: the type of a field) *)
Fixpoint projected (x : name) (bs : list (rty * path)) : option path :=
  match bs with
  | [] => None
  | (YPath [(y, [])], p) :: bs' => if name_eqb x y then Some p else projected x bs'
  | _ :: bs' => projected x bs'
  end.
Fixpoint subst (bs : list (rty * path)) (s : list (name * rty)) (t : rty) {struct t} : rty :=
  match t with
  | YPath [(x, [])] => match lookup x s with Some u => u | None => t end
  | YPath [(x, []); q] => match lookup x s, projected x bs with Some u, Some p => YQual u p [q] | _, _ => t end
  | YPath [(x, ts)] => YPath [(x, map (subst bs s) ts)]
  | YRef m u => YRef m (subst bs s u)
  | YPtr m u => YPtr m (subst bs s u)
  | YSlice u => YSlice (subst bs s u)
  | YArr u n => YArr (subst bs s u) (subst bs s n)
  | YTup ts => YTup (map (subst bs s) ts)
  | _ => t
  end.
Definition fields (d : tydef) (ts : list rty) : list rty :=
  map (subst (td_bounds d) (combine (td_types d ++ td_consts d) ts)) (concat (map snd (td_variants d))).

(* types of core and alloc without parameters of which all five hold *)
(* core: the primitive types, convert::Infallible, cell::BorrowError *)
Definition harmless (x : name) : bool :=
  name_eqb x id_Infallible || name_eqb x id_BorrowError ||
  match primitive x with Some (TInt _) | Some TBool | Some TChar => true | _ => false end.
(* those that hold the value they are given *)
(* core: mem::MaybeUninit, marker::PhantomData *)
Definition transparent (x : name) : bool := name_eqb x id_MaybeUninit || name_eqb x id_PhantomData.

(* a type parameter, or the error of one: nothing is known of it but what is given *)
(* (rustc) *)
Definition opaque (t : rty) : Prop :=
  match t with
  | YPath [(x, [])] => definition x = None /\ harmless x = false
  | YQual (YPath [(x, [])]) _ _ => ty_of [] (YPath [(x, [])]) = None
  | _ => False
  end.

Section Rules.
  Variable given : auto -> rty -> Prop.   (* what holds of the parameters *)
  (* the trait [k] holds of the type; no type here is recursive *)
  (* (rustc: auto traits); core: the implementations for references, pointers and Box *)
  Inductive Auto : auto -> rty -> Prop :=
  | Auto_given k t : opaque t -> given k t -> Auto k t
  | Auto_defined k x ts d : claimed k = false -> definition x = Some d -> length ts = length (td_types d ++ td_consts d) ->
      (forall t, In t (fields d ts) -> Auto k t) -> Auto k (YPath [(x, ts)])
  | Auto_harmless k x : definition x = None -> harmless x = true -> Auto k (YPath [(x, [])])
  | Auto_transparent k x t : definition x = None -> transparent x = true -> Auto k t -> Auto k (YPath [(x, [t])])
  | Auto_box k t : k <> Unpin -> Auto k t -> Auto k (YPath [(id_Box, [t])])
  | Auto_box_unpin t : Auto Unpin (YPath [(id_Box, [t])])
  | Auto_ref_send t : Auto Sync t -> Auto Send (YRef false t)
  | Auto_ref_sync m t : Auto Sync t -> Auto Sync (YRef m t)
  | Auto_ref_unpin m t : Auto Unpin (YRef m t)
  | Auto_ref_unwind t : Auto RefUnwindSafe t -> Auto UnwindSafe (YRef false t)
  | Auto_ref_ref m t : Auto RefUnwindSafe t -> Auto RefUnwindSafe (YRef m t)
  | Auto_mut_send t : Auto Send t -> Auto Send (YRef true t)
  | Auto_ptr_unpin m t : Auto Unpin (YPtr m t)
  | Auto_ptr_unwind k m t : k = UnwindSafe \/ k = RefUnwindSafe -> Auto RefUnwindSafe t -> Auto k (YPtr m t)
  | Auto_slice k t : Auto k t -> Auto k (YSlice t)
  | Auto_array k t n : Auto k t -> Auto k (YArr t n)
  | Auto_tuple k ts : (forall t, In t ts -> Auto k t) -> Auto k (YTup ts)
  | Auto_fn k : Auto k YFn
  | Auto_error k t u tr x e : ty_of [] t = Some u -> last_name tr = Some x -> Decided (fun n => error_of n x u) (Some e) -> Auto k e ->
      Auto k (YQual t tr [(id_Error, [])]).
End Rules.
