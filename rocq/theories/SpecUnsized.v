(* Vocabulary of C129, and of what the headers ask of the parts of a type (C116, C117). Definitions only. *)
From Verif Require Import Base Types SourceNames SourceSyntax SourceMeaning SourceRun SourceText SourceHeaders SpecHeaders SpecDecode.

(* Types whose values have no size that is known when the program is compiled. *)
Definition unsized (t : ty) : bool := match t with TSlice _ | TStr | TCStr => true | _ => false end.

(* The types of two headers are the same. *)
Definition same_header (a b : rty) : bool :=
  match a, b with
  | YRef m t, YRef m' u => Bool.eqb m m' && rty_eqb t u
  | _, _ => rty_eqb a b
  end.

(* A parameter of an implementation stands for a type of known size, unless the header says `?Sized` of it. True if the implementation that applies to
   the type, if any, is used in this way; [relaxed] lists the parameters with `?Sized`. *)
Definition size_known (ims : list impl) (relaxed : list (rty * list name)) (t : ty) : bool :=
  match find_impl ims t with
  | Some (im, s) =>
    forallb (fun p => negb (unsized (snd p)) || existsb (fun q => same_header (fst q) (im_self im) && is_param (fst p) (snd q)) relaxed) (fst s)
  | None => true
  end.

(* What headers ask of parameters besides the traits of this crate, conversions of errors, Display and Error. *)
Definition followed : list name := [id_Encode; id_Decode; id_DecodeBorrowed; id_SizedEncode; id_Into; id_Display; id_Error; id_PrimitiveDiscriminant].
Definition asked (ims : list impl) : list (rty * list (rty * path)) :=
  filter (fun x => match snd x with [] => false | _ => true end)
    (map (fun im => (im_self im, filter (fun b => match last_name (snd b) with Some tr => negb (existsb (name_eqb tr) followed) | None => true end) (im_bounds im))) ims).

(* `X: Trait` *)
Definition asks (x tr : name) : rty * path := (plain x, [(tr, [])]).

(* The type can be decoded: there is an implementation whose bounds are met, and none of those used for it or its parts takes a type of
   unknown size for a parameter without `?Sized`. (ToOwned, which is Clone for most types, is not looked at: see SourceHeaders.v.) *)
Definition Decodable (ims : list impl) (relaxed : list (rty * list name)) (t : ty) : Prop :=
  (exists e, Decided (fun n => error_of n id_Decode t) (Some e)) /\ contains (fun u => negb (size_known ims relaxed u)) t = false.

(* The parts that a type holds in place and that Rust therefore wants of known size wherever the type is used; Cell is among them as `T: Copy` has
   it so. Not among them are what pointers point to, and the contents of RefCell, Mutex and RwLock, which may be of unknown size. *)
Definition by_value (t : ty) : list ty :=
  match t with
  | TOption b | TArray b _ | TSlice b | TVec b | TLinked b | TSizedSlice b _
  | TRange b | TRangeFrom b | TRangeInclusive b | TRangeTo b | TRangeToInclusive b | TBound b | THashSet b => [b]
  | TWrap w b => match w with WRef | WRefMut | WBox | WRc | WArc | WAtomic => [] | _ => [b] end
  | TResult a b | THashMap a b => [a; b]
  | TTuple ts => ts
  | _ => []
  end.
