(* Vocabulary of the properties about memory. Definitions only. *)
From Verif Require Import Base Streams Utf8 Types SpecDecode Decode Heap.
Set Implicit Arguments.

(* The values of each kind of event in a log. *)
Definition made (es : list event) : list val := flat_map (fun e => match e with Made v => [v] | _ => [] end) es.
Definition dropped (es : list event) : list val := flat_map (fun e => match e with Dropped v => [v] | _ => [] end) es.
Definition leaked (es : list event) : list val := flat_map (fun e => match e with Leaked v => [v] | _ => [] end) es.
Definition reserved (es : list event) : list (ty * nat) := flat_map (fun e => match e with Reserved t n => [(t, n)] | _ => [] end) es.

(* The values inside [v] that own heap memory, [v] included: boxes and counted references, vectors and lists, texts, maps and sets. Slices and borrowed
   texts occur behind Cow, where decoding makes their owned forms. *)
Fixpoint owners (t : ty) (v : val) {struct t} : list val :=
  match t, v with
  | TWrap WBox t, VWrap x | TWrap WRc t, VWrap x | TWrap WArc t, VWrap x => v :: owners t x
  | TVec t, VSeq xs | TLinked t, VSeq xs | TSlice t, VSeq xs => v :: flat_map (owners t) xs
  | TString, VStr _ | TCString, VStr _ | TStr, VStr _ | TCStr, VStr _ => [v]
  | THashMap tk tv, VMap kvs => v :: flat_map (fun p => owners tk (fst p) ++ owners tv (snd p)) kvs
  | THashSet tk, VSet ks => v :: flat_map (owners tk) ks
  (* these own nothing themselves *)
  | TWrap _ t, VWrap x | TCow t, VCow _ x | TOption t, VSome x | TRefCell t, VRefCell _ x | TLock _ t, VLock _ x
  | TResult t _, VOk x | TResult _ t, VErr x | TBound t, VIncluded x | TBound t, VExcluded x
  | TRangeFrom t, VHalfRange x | TRangeTo t, VHalfRange x | TRangeToInclusive t, VHalfRange x => owners t x
  | TRange t, VRange a b | TRangeInclusive t, VRangeInclusive a b _ => owners t a ++ owners t b
  | TArray t _, VSeq xs | TSizedSlice t _, VSeq xs => flat_map (owners t) xs
  | TTuple ts, VTuple xs | TStruct ts, VTuple xs => flat_map (fun p => fst p (snd p)) (combine (map owners ts) xs)
  | TEnum _ vs, VEnum i xs =>
    match nth_error (map (fun variant => map owners (snd variant)) vs) i with
    | Some fields => flat_map (fun p => fst p (snd p)) (combine fields xs)
    | None => []
    end
  | _, _ => []
  end.

(* Types with a value that owns heap memory. *)
Definition is_owner (t : ty) : bool :=
  match t with
  | TWrap WBox _ | TWrap WRc _ | TWrap WArc _ | TVec _ | TLinked _ | TString | TCString | THashMap _ _ | THashSet _
  | TSlice _ | TStr | TCStr => true      (* the last three stand for their owned forms behind Cow *)
  | _ => false
  end.
Definition owns (t : ty) : bool := contains is_owner t.

(* The collections that are decoded into memory that no destructor looks at, with items that own memory. *)
Definition leaky (t : ty) : bool :=
  match t with TVec t | TSlice t | TArray t _ | TSizedSlice t _ => owns t | _ => false end.
