(* Implementations of Encode and Decode that the user of the library writes, and the library's generic implementations around them
   (oct/src/encode/encode/mod.rs, oct/src/decode/decode/mod.rs; the derive macros). Definitions only. *)
From Verif Require Import Base Streams Utf8 Types Traits Encode Decode Sized Slot.
Set Implicit Arguments.

(* `impl Encode for T` and `impl Decode for T` (oct/src/encode/encode/mod.rs:133-147, oct/src/decode/decode/mod.rs:102-112): any two functions.
   The values of T stand for any values of [val], and its errors for any values of [eerr] and [derr]. *)
Record impl := Impl { u_encode : val -> E; u_decode : D val }.

(* A type that may mention types of the user, by number. [UStd] is a type that mentions none. The conversions are those that the compiler
   selects for the errors, `From` implementations that the user may have written: from the error of E to that of T in Result<T, E>, and
   from the errors of fields to the generic errors in derived code. The insertions are what `HashMap::insert` and `HashSet::insert` do given the `Eq` and
   `Hash` of the keys, which the user may have written in any way: any functions of what the table holds. *)
(* the implementations in enc and dec that have a type parameter, and the derive macros *)
Inductive uty :=
| UUser (k : nat)
| UStd (t : ty)
| UOption (t : uty)
| UResult (conv : eerr -> eerr) (t e : uty)
| UTuple (ts : list uty)
| UArray (t : uty) (n : nat)
| USlice (t : uty)
| UVec (t : uty)
| ULinked (t : uty)
| USizedSlice (t : uty) (n : nat)
| UWrap (w : wrapper) (t : uty)
| UCow (t : uty)
| URefCell (t : uty)
| ULock (l : lock) (t : uty)
| URange (t : uty)
| URangeInclusive (t : uty)
| URangeFrom (t : uty)
| URangeTo (t : uty)
| URangeToInclusive (t : uty)
| UBound (t : uty)
| UHashMap (insert : val -> val -> list (val * val) -> list (val * val)) (k v : uty)
| UHashSet (insert : val -> list val -> list val) (k : uty)
| UStruct (ce : eerr -> eerr) (cd : derr -> derr) (ts : list uty)
| UEnum (ce : eerr -> eerr) (cd : derr -> derr) (r : ity) (vs : list (option Z * list uty)).

(* As [Encode.encode], line for line, with calls of the user's functions. *)
Fixpoint uencode (checks : bool) (us : nat -> impl) (t : uty) (v : val) {struct t} : E :=
  match t, v with
  | UUser k, v => u_encode (us k) v
  | UStd t, v => encode checks t v
  | UOption _, VNone => enc_bool false                                            (* encode/encode/mod.rs:509-535 *)
  | UOption t, VSome v => eseq (enc_bool true) (uencode checks us t v)
  | UResult _ t _, VOk v => eseq (enc_bool false) (uencode checks us t v)         (* encode/encode/mod.rs:642-674 *)
  | UResult conv _ e, VErr v => eseq (enc_bool true) (emap_err conv (uencode checks us e v))
  | UTuple ts, VTuple vs => enc_fields (map (uencode checks us) ts) (fun e => e) vs   (* encode/encode/mod.rs:869-891 *)
  | UArray t _, VSeq vs => enc_items (uencode checks us t) EItem 0 vs             (* encode/encode/mod.rs:181-193 *)
  | USlice t, VSeq vs | UVec t, VSeq vs | USizedSlice t _, VSeq vs => enc_slice (uencode checks us t) EItem vs
                                                                                  (* encode/encode/mod.rs:196-215, 836-843, sized_slice/code.rs:52-59 *)
  | ULinked t, VSeq vs => enc_slice (uencode checks us t) EItemTuple vs           (* encode/encode/mod.rs:475-493 *)
  | UWrap _ t, VWrap v => uencode checks us t v                                   (* see [wrapper] *)
  | UCow t, VCow _ v => uencode checks us t v                                     (* encode/encode/mod.rs:294-301 *)
  | URefCell t, VRefCell b v => enc_refcell (uencode checks us t) b v             (* encode/encode/mod.rs:626-640 *)
  | ULock _ t, VLock _ v => uencode checks us t v                                 (* encode/encode/mod.rs:497-507, 678-688 *)
  | URange t, VRange a b | URangeInclusive t, VRangeInclusive a b _ => eseq (uencode checks us t a) (uencode checks us t b)
                                                                                  (* encode/encode/mod.rs:555-565, 585-595 *)
  | URangeFrom t, VHalfRange a | URangeTo t, VHalfRange a | URangeToInclusive t, VHalfRange a => uencode checks us t a
                                                                                  (* encode/encode/mod.rs:567-574, 597-604, 606-613 *)
  | UBound t, VIncluded v => eseq (enc_u8 0) (emap_err EField (uencode checks us t v))   (* encode/encode/mod.rs:238-261 *)
  | UBound t, VExcluded v => eseq (enc_u8 1) (emap_err EField (uencode checks us t v))
  | UBound _, VUnbounded => enc_u8 2
  | UHashMap _ k v, VMap kvs => enc_entries (uencode checks us k) (uencode checks us v) kvs   (* encode/encode/mod.rs:340-356 *)
  | UHashSet _ k, VSet ks => enc_keys (uencode checks us k) ks                     (* encode/encode/mod.rs:360-376 *)
  | UStruct ce _ ts, VTuple vs => enc_fields (map (uencode checks us) ts) ce vs   (* oct-macros/src/impls/encode_struct.rs:50-64 *)
  | UEnum ce _ r vs, VEnum i fs =>                                                (* oct-macros/src/impls/encode_enum.rs:68-93 *)
    match discriminants (map fst vs) with
    | None => epanic PStuck
    | Some ds =>
      match nth_error ds i, nth_error (map (fun x => map (uencode checks us) (snd x)) vs) i with
      | Some d, Some gs => eseq (emap_err EDisc (enc_int r d)) (enc_fields gs (fun e => EField (ce e)) fs)
      | _, _ => epanic PStuck
      end
    end
  | _, _ => epanic PStuck
  end.

(* As [Decode.dec_map] and [Decode.dec_set], with the given insertion. *)
(* decode/decode/mod.rs:322-348 *)
Fixpoint dec_entries_with (insert : val -> val -> list (val * val) -> list (val * val)) (fk fv : D val) (n i : nat) (acc : list (val * val)) : D (list (val * val)) :=
  match n with
  | O => dok acc
  | S n' =>
    dbind (dmap_err (DItem i) fk) (fun k => dbind (dmap_err (DItem i) fv) (fun v =>
    dec_entries_with insert fk fv n' (S i) (insert k v acc)))
  end.
(* decode/decode/mod.rs:322-348 *)
Definition dec_map_with (insert : val -> val -> list (val * val) -> list (val * val)) (fk fv : D val) : D val :=
  dbind dec_usize (fun len => dmap VMap (dec_entries_with insert fk fv (Z.to_nat len) 0 [])).
(* decode/decode/mod.rs:352-374 *)
Fixpoint dec_keys_with (insert : val -> list val -> list val) (fk : D val) (n i : nat) (acc : list val) : D (list val) :=
  match n with
  | O => dok acc
  | S n' => dbind (dmap_err (DItem i) fk) (fun k => dec_keys_with insert fk n' (S i) (insert k acc))
  end.
(* decode/decode/mod.rs:352-374 *)
Definition dec_set_with (insert : val -> list val -> list val) (fk : D val) : D val :=
  dbind dec_usize (fun len => dmap VSet (dec_keys_with insert fk (Z.to_nat len) 0 [])).

(* As [Decode.decode]. *)
Fixpoint udecode (us : nat -> impl) (t : uty) : D val :=
  match t with
  | UUser k => u_decode (us k)
  | UStd t => decode t
  | UOption t => dec_option (udecode us t)                                        (* decode/decode/mod.rs:475-492 *)
  | UResult _ t e => dec_result (udecode us t) (udecode us e)                     (* decode/decode/mod.rs:601-627 *)
  | UTuple ts => dmap VTuple (dec_fields (fun e => e) (map (udecode us) ts))      (* decode/decode/mod.rs:836-857 *)
  | UArray t n => dmap VSeq (dec_items (udecode us t) n 0)                        (* decode/decode/mod.rs:126-152 *)
  | UVec t | ULinked t => dec_vec (udecode us t)                                  (* decode/decode/mod.rs:781-805, 441-459 *)
  | USizedSlice t n => dec_sized_slice (udecode us t) n                           (* sized_slice/code.rs:29-48 *)
  | UWrap _ t => dmap VWrap (udecode us t)
  | UCow b => dmap (VCow true) match b with USlice t => dec_vec (udecode us t) | _ => udecode us b end   (* decode/decode/mod.rs:260-274 *)
  | URefCell t => dmap (VRefCell false) (udecode us t)                            (* decode/decode/mod.rs:589-599 *)
  | ULock _ t => dmap (VLock false) (udecode us t)                                (* decode/decode/mod.rs:463-473, 631-641 *)
  | URange t => dbind (udecode us t) (fun a => dmap (VRange a) (udecode us t))    (* decode/decode/mod.rs:512-522 *)
  | URangeInclusive t => dbind (udecode us t) (fun a => dmap (fun b => VRangeInclusive a b false) (udecode us t))   (* decode/decode/mod.rs:544-554 *)
  | URangeFrom t | URangeTo t | URangeToInclusive t => dmap VHalfRange (udecode us t)   (* decode/decode/mod.rs:524-533, 556-565, 567-576 *)
  | UBound t => dec_bound (udecode us t)                                          (* decode/decode/mod.rs:183-212 *)
  | UHashMap insert k v => dec_map_with insert (udecode us k) (udecode us v)      (* decode/decode/mod.rs:322-348 *)
  | UHashSet insert k => dec_set_with insert (udecode us k)                       (* decode/decode/mod.rs:352-374 *)
  | UStruct _ cd ts => dmap VTuple (dec_fields cd (map (udecode us) ts))          (* oct-macros/src/impls/decode_struct.rs:52-60 *)
  | UEnum _ cd r vs =>                                                            (* oct-macros/src/impls/decode_enum.rs:64-81 *)
    match discriminants (map fst vs) with
    | None => dpanic PStuck
    | Some ds =>
      dbind (dec_int r) (fun d =>
      match find_disc d ds 0 with
      | None => derror (DUnassigned r d)
      | Some i =>
        match nth_error (map (fun x => map (udecode us) (snd x)) vs) i with
        | Some gs => dmap (VEnum i) (dec_fields (fun e => DField (cd e)) gs)
        | None => dpanic PStuck
        end
      end)
    end
  | USlice _ => dpanic PStuck
  end.

(* As [Sized.max_size]: the constant of a type, from the constants that the users' `impl SizedEncode` give ([sz]), if they do.
   [size_of] and [usize_of] are core::mem::size_of. *)
Fixpoint umax_size (sz : nat -> option N) (size_of : size_of_fn) (usize_of : uty -> N) (t : uty) : option N :=
  let go := umax_size sz size_of usize_of in
  match t with
  | UUser k => sz k
  | UStd t => max_size size_of t
  | UOption t | UBound t => option_map (N.add 1) (go t)                           (* oct/src/encode/sized_encode/mod.rs:184-188, 114-118 *)
  | UResult _ t e =>                                                              (* :228-236 *)
    match go t, go e with
    | Some _, Some _ => Some (1 + if N.ltb (usize_of e) (usize_of t) then usize_of t else usize_of e)%N
    | _, _ => None
    end
  | UTuple ts | UStruct _ _ ts => sum_opt (map go ts)                             (* :291-302; oct-macros/src/impls/sized_encode_struct.rs:33-35 *)
  | UArray t n | USizedSlice t n => option_map (fun s => s * N.of_nat n)%N (go t) (* :100-102; oct/src/sized_slice/code.rs:61-63 *)
  | UWrap _ t | UCow t | URefCell t | ULock _ t | URangeFrom t | URangeTo t | URangeToInclusive t => go t
  | URange t | URangeInclusive t => option_map (fun s => s * 2)%N (go t)          (* :194-196, 206-208 *)
  | UEnum _ _ r vs => max_opt (map (fun x => option_map (N.add (int_size r)) (sum_opt (map go (snd x)))) vs)
                                                                                  (* oct-macros/src/impls/sized_encode_enum.rs:44-58 *)
  | USlice _ | UVec _ | ULinked _ | UHashMap _ _ _ | UHashSet _ _ => None
  end.

(* ---- What safe code can do with the output it is given as `&mut Output`: write to it; and put another output in its place
   (`mem::replace`, or an assignment), over a buffer of its own, keep the first one, write to either, and put it back. *)
(* oct/src/encode/output/mod.rs:35-113, `&mut Output` *)
Record outputs := Outputs { os_given : output; os_other : output; os_swapped : bool }.

(* oct/src/encode/output/mod.rs:39-74; core: `mem::replace` *)
Inductive act :=
| AWrite (data : list byte)        (* `output.write(data)`; whether it panics or goes on after an error is the user's affair *)
| AWriteOther (data : list byte)
| AFresh (buf : list byte)         (* a new output over any buffer, in place of the kept one *)
| ASwap.

(* oct/src/encode/output/mod.rs:49-74 *)
Definition write_to (o : output) (data : list byte) : output := fst (output_write o data).
(* one of them *)
Definition act_step (s : outputs) (a : act) : outputs :=
  match a, os_swapped s with
  | AWrite data, false | AWriteOther data, true => Outputs (write_to (os_given s) data) (os_other s) (os_swapped s)
  | AWrite data, true | AWriteOther data, false => Outputs (os_given s) (write_to (os_other s) data) (os_swapped s)
  | AFresh buf, false => Outputs (os_given s) (output_new buf) (os_swapped s)
  | AFresh buf, true => s                             (* the kept one is the given one: it is not thrown away here *)
  | ASwap, b => Outputs (os_given s) (os_other s) (negb b)
  end.
(* what stands behind the reference *)
(* (auxiliary) *)
Definition os_current (s : outputs) : output := if os_swapped s then os_other s else os_given s.

(* slot/mod.rs:270-279 `write` of a value whose `encode` does [acts] and returns [r] *)
Definition slot_write_user (s : slot) (acts : list act) (r : res eerr unit) : slot * res eerr unit :=
  let st := fold_left act_step acts (Outputs (output_new (s_buf s)) (output_new []) false) in
  let s' := Slot (o_buf (os_given st)) (s_len s) in
  match r with
  | Ok _ => slot_set_len s' (output_position (os_current st))
  | r => (s', r)
  end.
