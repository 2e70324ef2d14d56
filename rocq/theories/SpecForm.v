(* Vocabulary of C103: the form of a type, which says in what pieces its values travel, and the content of a value, which says what the pieces
   are. Names, nesting of products, and containers that add nothing are not part of the form. Definitions only. *)
From Verif Require Import Base Types.
Set Implicit Arguments.
Local Open Scope Z_scope.

Inductive form :=
| FLeaf (t : ty)                              (* a value of the type *)
| FSign (a b : list form)                     (* a sign octet; [a] if it is zero, [b] if not *)
| FMany (f : list form)                       (* a number of items, then the items *)
| FText                                       (* a number of octets, then that much UTF-8 *)
| FNullFree                                   (* a number of octets, then that many octets which are not zero *)
| FChoice (r : ity) (vs : list (Z * list form)).  (* a number of the given type, then what the number selects *)

(* The form in which values of a type are read ([reading]) or written. Where the two differ, the type has a form of its own for reading: a
   SizedSlice or a SizedStr is written like a slice or str, but it does not read all that it could have been. *)
Fixpoint forms (reading : bool) (t : ty) {struct t} : list form :=
  match t with
  | TUnit | TPhantomData | TPhantomPinned | TRangeFull => []
  | TTuple ts | TStruct ts => flat_map (forms reading) ts
  | TArray t n => concat (repeat (forms reading t) n)
  | TRange t | TRangeInclusive t => forms reading t ++ forms reading t
  | TRangeFrom t | TRangeTo t | TRangeToInclusive t | TWrap _ t | TRefCell t | TLock _ t => forms reading t
  | TCow t =>
    match t with
    | TSlice t => [FMany (forms reading t)]
    | TStr => [FText]
    | TCStr => [FNullFree]
    | _ => forms reading t
    end
  | TBool => [FSign [] []]
  | TOption t => [FSign [] (forms reading t)]
  | TResult t e => [FSign (forms reading t) (forms reading e)]
  | TVec t | TLinked t => [FMany (forms reading t)]
  | TString => [FText]
  | TCString => [FNullFree]
  | TSlice t' | TSizedSlice t' _ => if reading then [FLeaf t] else [FMany (forms reading t')]
  | TStr | TSizedStr _ => if reading then [FLeaf t] else [FText]
  | TCStr => if reading then [FLeaf t] else [FNullFree]
  | TSockV4 => [FLeaf TIpv4; FLeaf (TInt U16)]
  | TSockV6 => [FLeaf TIpv6; FLeaf (TInt U16); FLeaf (TInt U32); FLeaf (TInt U32)]
  | TIpAddr => [FChoice U8 [(4, [FLeaf TIpv4]); (6, [FLeaf TIpv6])]]
  | TSockAddr =>
    [FChoice U8 [(4, [FLeaf TIpv4; FLeaf (TInt U16)]); (6, [FLeaf TIpv6; FLeaf (TInt U16); FLeaf (TInt U32); FLeaf (TInt U32)])]]
  | TBound t => [FChoice U8 [(0, forms reading t); (1, forms reading t); (2, [])]]
  | TEnum r vs =>
    match discriminants (map fst vs) with
    | Some ds => [FChoice r (combine ds (map (fun x => flat_map (forms reading) (snd x)) vs))]
    | None => [FLeaf t]
    end
  | _ => [FLeaf t]
  end.

Inductive piece :=
| PLeaf (v : val)
| PSign (s : bool) (ps : list piece)
| PMany (items : list (list piece))
| PText (bs : list byte)
| PChoice (d : Z) (ps : list piece)
| PStop.                                      (* a RefCell that is mutably borrowed: nothing can be written from here on *)

(* the contents of the fields *)
Fixpoint each (fs : list (val -> list piece)) (vs : list val) : list piece :=
  match fs, vs with
  | f :: fs', v :: vs' => f v ++ each fs' vs'
  | _, _ => []
  end.

Fixpoint content (reading : bool) (t : ty) (v : val) {struct t} : list piece :=
  match t, v with
  | TTuple ts, VTuple vs | TStruct ts, VTuple vs => each (map (content reading) ts) vs
  | TArray t _, VSeq vs => flat_map (content reading t) vs
  | TRange t, VRange a b | TRangeInclusive t, VRangeInclusive a b _ => content reading t a ++ content reading t b
  | TRangeFrom t, VHalfRange v | TRangeTo t, VHalfRange v | TRangeToInclusive t, VHalfRange v
  | TWrap _ t, VWrap v | TLock _ t, VLock _ v => content reading t v
  | TRefCell t, VRefCell b v => if b then [PStop] else content reading t v
  | TCow t, VCow _ v =>
    match t, v with
    | TSlice t, VSeq vs => [PMany (map (content reading t) vs)]
    | TStr, VStr bs | TCStr, VStr bs => [PText bs]
    | _, _ => content reading t v
    end
  | TBool, VBool b => [PSign b []]
  | TOption _, VNone => [PSign false []]
  | TOption t, VSome v => [PSign true (content reading t v)]
  | TResult t _, VOk v => [PSign false (content reading t v)]
  | TResult _ e, VErr v => [PSign true (content reading e v)]
  | TVec t, VSeq vs | TLinked t, VSeq vs => [PMany (map (content reading t) vs)]
  | TSlice t, VSeq vs | TSizedSlice t _, VSeq vs => if reading then [PLeaf v] else [PMany (map (content reading t) vs)]
  | TString, VStr bs | TCString, VStr bs => [PText bs]
  | TStr, VStr bs | TSizedStr _, VStr bs | TCStr, VStr bs => if reading then [PLeaf v] else [PText bs]
  | TSockV4, VSock4 o p => [PLeaf (VIp4 o); PLeaf (VInt p)]
  | TSockV6, VSock6 o p f s => [PLeaf (VIp6 o); PLeaf (VInt p); PLeaf (VInt f); PLeaf (VInt s)]
  | TIpAddr, VIpV4 o => [PChoice 4 [PLeaf (VIp4 o)]]
  | TIpAddr, VIpV6 o => [PChoice 6 [PLeaf (VIp6 o)]]
  | TSockAddr, VSockV4 o p => [PChoice 4 [PLeaf (VIp4 o); PLeaf (VInt p)]]
  | TSockAddr, VSockV6 o p f s => [PChoice 6 [PLeaf (VIp6 o); PLeaf (VInt p); PLeaf (VInt f); PLeaf (VInt s)]]
  | TBound t, VIncluded v => [PChoice 0 (content reading t v)]
  | TBound t, VExcluded v => [PChoice 1 (content reading t v)]
  | TBound _, VUnbounded => [PChoice 2 []]
  | TEnum r vs, VEnum i fs =>
    match discriminants (map fst vs) with
    | Some ds =>
      match nth_error ds i, nth_error (map (fun x => map (content reading) (snd x)) vs) i with
      | Some d, Some gs => [PChoice d (each gs fs)]
      | _, _ => []
      end
    | None => [PLeaf v]
    end
  | TUnit, _ | TPhantomData, _ | TPhantomPinned, _ | TRangeFull, _ => []
  | _, _ => [PLeaf v]
  end.

(* The types exchange the same forms: values of one are written, or read, like values of the other. *)
Definition WritesLike (t t' : ty) : Prop := forms false t = forms false t'.
Definition ReadsLike (t t' : ty) : Prop := forms true t = forms true t'.
