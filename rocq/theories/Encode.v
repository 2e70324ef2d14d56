(* Every `impl Encode`: oct/src/encode/encode/mod.rs, the containers' code.rs, and the code that
   `#[derive(Encode)]` generates. Definitions only. *)
From Verif Require Import Base Streams Utf8 Types Traits.
Set Implicit Arguments.
Local Open Scope Z_scope.

(* A call of `encode`: changes the output and returns, or panics leaving the output in the state shown. *)
(* the signature at encode/encode/mod.rs:146 *)
Definition E := output -> output * res eerr unit.

(* `Ok(())` *)
Definition eok : E := fun o => (o, Ok tt).
(* `Err(e)` *)
Definition eerror (e : eerr) : E := fun o => (o, Err e).
(* `panic!`, `unwrap` of an Err and so on *)
Definition epanic (p : panic) : E := fun o => (o, Panic p).

(* `a?; b` *)
(* Used throughout enc, as at 188-193 *)
Definition eseq (a b : E) : E := fun o =>
  match a o with
  | (o', Ok _) => b o'
  | (o', Err e) => (o', Err e)
  | (o', Panic p) => (o', Panic p)
  end.

(* `a.map_err(f)` *)
(* Used throughout enc, as at 188-193 *)
Definition emap_err (f : eerr -> eerr) (a : E) : E := fun o =>
  match a o with
  | (o', Err e) => (o', Err (f e))
  | r => r
  end.

(* `output.write(data).unwrap()` *)
(* encode/encode/mod.rs:861 *)
Definition ewrite (data : list byte) : E := fun o =>
  match output_write o data with
  | (o', Ok _) => (o', Ok tt)
  | (o', Err e) => (o', Panic (POutput e))
  | (o', Panic p) => (o', Panic p)
  end.

(* impl_numeric, encode/encode/mod.rs:854-867: the little-endian octets of a [w]-octet number *)
Definition enc_num (w : nat) (z : Z) : E := ewrite (le_bytes w z).
(* encode/encode/mod.rs:930-943, the case of u8 *)
Definition enc_u8 (z : Z) : E := enc_num 1 z.

(* usize, encode/encode/mod.rs:820-832 *)
Definition enc_usize (z : Z) : E := if (0 <=? z) && (z <? 65536) then enc_num 2 z else eerror (EUsize z).
(* isize, encode/encode/mod.rs:439-451 *)
Definition enc_isize (z : Z) : E := if (-32768 <=? z) && (z <? 32768) then enc_num 2 z else eerror (EIsize z).

(* all integers; NonZero encodes as the integer, encode/encode/mod.rs:893-904 *)
Definition enc_int (i : ity) (z : Z) : E :=
  match i with
  | Usize => enc_usize z
  | Isize => enc_isize z
  | _ => enc_num (iwidth i) z
  end.

(* bool, encode/encode/mod.rs:228-236: `u8::from` of it *)
Definition enc_bool (b : bool) : E := enc_u8 (if b then 1 else 0).

(* `for (i, v) in iter.enumerate() { v.encode(output).map_err(|e| wrap(i, e))?; }`: [T; N] encode/encode/mod.rs:185-192, [T] encode/encode/mod.rs:207-212,
   LinkedList encode/encode/mod.rs:485-490. [i] is the index of the head of [l]. *)
Fixpoint enc_items {A : Type} (f : A -> E) (wrap : nat -> eerr -> eerr) (i : nat) (l : list A) : E :=
  match l with
  | [] => eok
  | x :: l' => eseq (emap_err (wrap i) (f x)) (enc_items f wrap (S i) l')
  end.

(* [T], encode/encode/mod.rs:196-215: the length as usize, then the items *)
Definition enc_slice {A : Type} (f : A -> E) (wrap : nat -> eerr -> eerr) (l : list A) : E :=
  eseq (emap_err ELen (enc_usize (Z.of_nat (length l)))) (enc_items f wrap 0 l).

(* str encode/encode/mod.rs:752-760 and CStr encode/encode/mod.rs:303-311: as a slice of u8 *)
Definition enc_bytes (bs : list byte) : E := enc_slice (fun b => enc_u8 (b2z b)) EItem bs.

(* fields one after another: tuples encode/encode/mod.rs:869-891; the generated code applies a conversion to each error *)
Fixpoint enc_fields (fs : list (val -> E)) (conv : eerr -> eerr) (vs : list val) : E :=
  match fs, vs with
  | [], [] => eok
  | f :: fs', v :: vs' => eseq (emap_err conv (f v)) (enc_fields fs' conv vs')
  | _, _ => epanic PStuck
  end.

(* HashMap encode/encode/mod.rs:350-354, HashSet encode/encode/mod.rs:370-373: entries in iteration order, and no length *)
Fixpoint enc_entries (fk fv : val -> E) (kvs : list (val * val)) : E :=
  match kvs with
  | [] => eok
  | (k, v) :: l => eseq (fk k) (eseq (fv v) (enc_entries fk fv l))
  end.
(* HashSet, encode/encode/mod.rs:369-375 *)
Fixpoint enc_keys (fk : val -> E) (ks : list val) : E :=
  match ks with
  | [] => eok
  | k :: l => eseq (fk k) (enc_keys fk l)
  end.

(* Duration encode/encode/mod.rs:325-336 *)
Definition enc_duration (s n : Z) : E := eseq (enc_num 8 s) (enc_num 4 n).

(* Ipv4Addr encode/encode/mod.rs:417-426, Ipv6Addr encode/encode/mod.rs:428-437: `to_bits`, then as an integer *)
Definition enc_ip4 (o : list byte) : E := enc_num 4 (of_be o).
Definition enc_ip6 (o : list byte) : E := enc_num 16 (of_be o).
(* SocketAddrV4 encode/encode/mod.rs:724-735, SocketAddrV6 encode/encode/mod.rs:737-750 *)
Definition enc_sock4 (o : list byte) (p : Z) : E := eseq (enc_ip4 o) (enc_num 2 p).
(* SocketAddrV6, encode/encode/mod.rs:737-750 *)
Definition enc_sock6 (o : list byte) (p f s : Z) : E :=
  eseq (enc_ip6 o) (eseq (enc_num 2 p) (eseq (enc_num 4 f) (enc_num 4 s))).

(* std on Unix: `a.duration_since(b)`, whole seconds only, for a >= b given as (seconds, nanoseconds) *)
Definition secs_between (s n s' n' : Z) : Z := (s * 1000000000 + n - (s' * 1000000000 + n')) / 1000000000.

(* `x as i64` for a u64 *)
Definition as_i64 (x : Z) : Z := if x <? 2 ^ 63 then x else x - 2 ^ 64.

(* SystemTime encode/encode/mod.rs:776-809. Before the epoch the number is `0x0 - (secs as i64)`, which overflows only for
   secs = 2^63; [checks] says whether the program was built with overflow checks. *)
Definition enc_time (checks : bool) (s n : Z) : E :=
  if 0 <=? s then enc_num 8 (as_i64 (secs_between s n 0 0))
  else
    let d := as_i64 (secs_between 0 0 s n) in
    if d =? - 2 ^ 63 then (if checks then epanic PArith else enc_num 8 (- 2 ^ 63))
    else enc_num 8 (0 - d).

(* RefCell encode/encode/mod.rs:626-640 *)
Definition enc_refcell (f : val -> E) (mut_borrowed : bool) (v : val) : E :=
  if mut_borrowed then eerror EBadBorrow else emap_err EBadValue (f v).

(* `e.encode(output).map_err(Into::into)` in Result, encode/encode/mod.rs:667: the conversion that the static error types select. Where
   the target is Infallible the source has no value either, so the identity stands for `unreachable!()`. *)
Definition result_conv (t e : ty) (x : eerr) : eerr :=
  match enc_ety t, enc_ety e with
  | Some YGeneric, Some YGeneric => x
  | Some YGeneric, Some _ => into_generic_enc x
  | _, _ => x
  end.

(* The derived enum: oct-macros/src/impls/encode_enum.rs:68-93. [ds] are the discriminants, [fss] the encoders of the
   fields of each variant. *)
Definition enc_enum (r : ity) (ds : option (list Z)) (fss : list (list (val -> E))) (i : nat) (vs : list val) : E :=
  match ds with
  | None => epanic PStuck
  | Some ds =>
    match nth_error ds i, nth_error fss i with
    | Some d, Some fs =>
      eseq (emap_err EDisc (enc_int r d)) (enc_fields fs (fun e => EField (into_generic_enc e)) vs)
    | _, _ => epanic PStuck
    end
  end.

(* enc, each implementation at the lines given above or at its case *)
Fixpoint encode (checks : bool) (t : ty) (v : val) {struct t} : E :=
  match t, v with
  | TInt i, VInt z | TNonZero i, VInt z => enc_int i z
  | TF32, VInt z => enc_num 4 z
  | TF64, VInt z => enc_num 8 z
  | TBool, VBool b => enc_bool b
  | TChar, VChar c => enc_num 4 c                                   (* char encode/encode/mod.rs:283-290 *)
  | TUnit, VUnit | TPhantomData, VUnit | TPhantomPinned, VUnit | TRangeFull, VUnit => eok
                                                                    (* encode/encode/mod.rs:811-818, 537-544, 546-553, 576-583 *)
  | TOption _, VNone => enc_bool false                              (* Option encode/encode/mod.rs:509-535 *)
  | TOption t, VSome v => eseq (enc_bool true) (encode checks t v)
  | TResult t _, VOk v => eseq (enc_bool false) (encode checks t v) (* Result encode/encode/mod.rs:642-674 *)
  | TResult t e, VErr v => eseq (enc_bool true) (emap_err (result_conv t e) (encode checks e v))
  | TTuple ts, VTuple vs => enc_fields (map (encode checks) ts) (fun e => e) vs
  | TArray t _, VSeq vs => enc_items (encode checks t) EItem 0 vs
  | TSlice t, VSeq vs                                               (* [T] *)
  | TVec t, VSeq vs                                                 (* Vec encode/encode/mod.rs:836-843 *)
  | TSizedSlice t _, VSeq vs => enc_slice (encode checks t) EItem vs  (* oct/src/sized_slice/code.rs:52-59 *)
  | TLinked t, VSeq vs => enc_slice (encode checks t) EItemTuple vs (* LinkedList encode/encode/mod.rs:475-493 *)
  | TStr, VStr bs | TString, VStr bs                                (* str, String encode/encode/mod.rs:764-772 *)
  | TSizedStr _, VStr bs                                            (* oct/src/sized_str/code.rs:49-56 *)
  | TCStr, VStr bs | TCString, VStr bs => enc_bytes bs              (* CStr, CString encode/encode/mod.rs:315-323 *)
  | TWrap _ t, VWrap v => encode checks t v                         (* see [wrapper] *)
  | TCow t, VCow _ v => encode checks t v                           (* Cow encode/encode/mod.rs:294-301 *)
  | TRefCell t, VRefCell b v => enc_refcell (encode checks t) b v
  | TLock _ t, VLock _ v => encode checks t v                       (* Mutex encode/encode/mod.rs:497-507, RwLock encode/encode/mod.rs:678-688: poison is ignored *)
  | TDuration, VDuration s n => enc_duration s n
  | TSystemTime, VTime s n => enc_time checks s n
  | TIpv4, VIp4 o => enc_ip4 o
  | TIpv6, VIp6 o => enc_ip6 o
  | TIpAddr, VIpV4 o => eseq (emap_err EDisc (enc_u8 4)) (emap_err EField (enc_ip4 o))   (* IpAddr encode/encode/mod.rs:391-415 *)
  | TIpAddr, VIpV6 o => eseq (emap_err EDisc (enc_u8 6)) (emap_err EField (enc_ip6 o))
  | TSockV4, VSock4 o p => enc_sock4 o p
  | TSockV6, VSock6 o p f s => enc_sock6 o p f s
  | TSockAddr, VSockV4 o p => eseq (enc_u8 4) (enc_sock4 o p)       (* SocketAddr encode/encode/mod.rs:699-722 *)
  | TSockAddr, VSockV6 o p f s => eseq (enc_u8 6) (enc_sock6 o p f s)
  | TRange t, VRange a b                                            (* Range encode/encode/mod.rs:555-565 *)
  | TRangeInclusive t, VRangeInclusive a b _ => eseq (encode checks t a) (encode checks t b)
                                                                    (* RangeInclusive encode/encode/mod.rs:585-595: start and end only *)
  | TRangeFrom t, VHalfRange a                                      (* encode/encode/mod.rs:567-574 *)
  | TRangeTo t, VHalfRange a                                        (* encode/encode/mod.rs:597-604 *)
  | TRangeToInclusive t, VHalfRange a => encode checks t a          (* encode/encode/mod.rs:606-613 *)
  | TBound t, VIncluded v => eseq (enc_u8 0) (emap_err EField (encode checks t v))   (* Bound encode/encode/mod.rs:238-261 *)
  | TBound t, VExcluded v => eseq (enc_u8 1) (emap_err EField (encode checks t v))
  | TBound _, VUnbounded => enc_u8 2
  | THashMap k v, VMap kvs => enc_entries (encode checks k) (encode checks v) kvs
  | THashSet k, VSet ks => enc_keys (encode checks k) ks
  | TStruct ts, VTuple vs => enc_fields (map (encode checks) ts) into_generic_enc vs
                                                                    (* oct-macros/src/impls/encode_struct.rs:50-64 *)
  | TEnum r vs, VEnum i fs =>
    enc_enum r (discriminants (map fst vs)) (map (fun x => map (encode checks) (snd x)) vs) i fs
  | _, _ => epanic PStuck      (* not a value of the type; [TInfallible] has none, encode/encode/mod.rs:380-389 *)
  end.
