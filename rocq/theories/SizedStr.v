(* SizedStr<N>: oct/src/sized_str/mod.rs, conv.rs, cmp.rs and code.rs. Definitions only. *)
From Verif Require Import Base Streams Utf8 Types Encode Decode Mem SizedSlice.
Set Implicit Arguments.

(* sized_str/mod.rs:74-75 `struct SizedStr<N>(SizedSlice<u8, N>)` *)
Definition sstr : Type := sslice byte.

(* oct/src/error/string_error.rs *)
Inductive string_error :=
| BadUtf8 (value : byte) (index : nat)
| SmallBuffer (e : length_error).

(* sized_str/mod.rs:98-123 *)
Definition st_capacity (s : sstr) : nat := ss_capacity s.
(* sized_str/mod.rs:107-109 `len` *)
Definition st_length (s : sstr) : nat := ss_length s.
(* sized_str/mod.rs:114-116 `is_empty` *)
Definition st_is_empty (s : sstr) : bool := ss_is_empty s.
(* sized_str/mod.rs:121-123 `is_full` *)
Definition st_is_full (s : sstr) : bool := ss_is_full s.

(* sized_str/conv.rs:140-148 `as_bytes` *)
Definition st_as_bytes (s : sstr) : out (list byte) := mem_slice (ss_buf s) 0 (ss_len s).
(* sized_str/conv.rs:155-159 `as_str`, and all that goes through it: AsRef, Borrow, Deref, Display, Debug, chars *)
Definition st_as_str (s : sstr) : out (list byte) :=
  obind (st_as_bytes s) (fun bs => match from_utf8 bs with None => Done bs | Some _ => Undefined UText end).

(* sized_str/conv.rs:85-95 `from_utf8_unchecked` with `from_raw_parts`, 109-115: a buffer of zeros, and the copy *)
Definition st_unchecked (n : nat) (bs : list byte) : out sstr :=
  omap (fun buf => SSlice buf (length bs)) (mem_copy (repeat (Some x00) n) bs).

(* sized_str/mod.rs:86-91 `new`, sized_str/conv.rs:295-305 `from_str`, 330-337 TryFrom<&str>, 339-348 TryFrom<String>. The argument is a `str`, so UTF-8. *)
Definition st_new (n : nat) (s : list byte) : out (string_error + sstr) :=
  if n <? length s then Done (inl (SmallBuffer (LengthError n (length s)))) else omap inr (st_unchecked n s).
(* sized_str/conv.rs:318-328 TryFrom<char> *)
Definition st_from_char (n : nat) (c : Z) : out (string_error + sstr) := st_new n (encode_utf8 c).

(* sized_str/conv.rs:57-75 `from_utf8` *)
Definition st_from_utf8 (n : nat) (bs : list byte) : out (string_error + sstr) :=
  if n <? length bs then Done (inl (SmallBuffer (LengthError n (length bs))))
  else match from_utf8 bs with
       | None => omap inr (st_unchecked n bs)
       | Some i => match nth_error bs i with
                   | Some c => Done (inl (BadUtf8 c i))
                   | None => Panics PIndex
                   end
       end.

(* sized_str/mod.rs:154-178 FromIterator<char>. The buffer holds zeros first; `buf[start..stop]` is checked. [fuel] bounds the number of turns; a turn
   that goes on takes at least one octet, so N + 1 turns are enough (SizedStrProofs.v). *)
Fixpoint chars_loop {St} (next : iterator St Z) (fuel n : nat) (buf : list byte) (len : nat) (st : St) : out (list byte * nat * St) :=
  match fuel with
  | O => Done (buf, len, st)
  | S fuel' =>
    match next st with
    | (None, st') => Done (buf, len, st')
    | (Some c, st') =>
      let rem := n - len in
      let req := len_utf8 c in
      if rem <? req then Done (buf, len, st')
      else if length buf <? len + req then Panics PIndex
      else chars_loop next fuel' n (firstn len buf ++ encode_utf8 c ++ skipn (len + req) buf) (len + req) st'
    end
  end.
(* sized_str/mod.rs:154-178 *)
Definition st_from_iter {St} (next : iterator St Z) (n : nat) (st : St) : out (sstr * St) :=
  omap (fun '(buf, len, st') => (SSlice (map Some buf) len, st')) (chars_loop next (S n) n (repeat x00 n) 0 st).

(* sized_str/mod.rs:74 `derive(Clone, Default)`: those of SizedSlice; `u8::clone` does not panic *)
Definition st_default (n : nat) : sstr := ss_default byte n.
(* sized_str/mod.rs:74 *)
Definition st_clone (s : sstr) : out sstr := ss_clone Some s.

(* sized_str/conv.rs:166-176 `as_mut_str` (AsMut, BorrowMut, DerefMut, IndexMut), and a change made through it: `&mut str` lets a safe program replace the
   text by any text of the same number of octets *)
Definition st_change (s : sstr) (bs : list byte) : out sstr :=
  omap (fun buf => SSlice buf (ss_len s)) (mem_copy (ss_buf s) bs).

(* sized_str/conv.rs:186-194 `into_raw_parts`: the buffer read as `[u8; N]`; an uninitialised octet is not a u8 *)
Definition st_into_raw_parts (s : sstr) : out (list byte * nat) :=
  omap (fun buf => (buf, ss_len s)) (mem_slice (ss_buf s) 0 (length (ss_buf s))).
(* sized_str/conv.rs:199-202 `into_bytes` *)
Definition st_into_bytes (s : sstr) : sslice byte := s.
(* sized_str/conv.rs:209-212 `into_boxed_str` *)
Definition st_into_boxed_str (granted : bool) (s : sstr) : out (list byte) :=
  obind (ss_into_boxed_slice 1 granted s) (fun bs => match from_utf8 bs with None => Done bs | Some _ => Undefined UText end).
(* sized_str/conv.rs:221-223 `into_string`: the text and the capacity of the String; `Box<str>::into_string` keeps the allocation, of `len` octets *)
Definition st_into_string (granted : bool) (s : sstr) : out (list byte * nat) :=
  omap (fun bs => (bs, length bs)) (st_into_boxed_str granted s).

(* sized_str/cmp.rs:29-80; `str` compares its octets *)
Definition byte_cmp (a b : byte) : comparison := (b2z a ?= b2z b)%Z.
(* sized_str/cmp.rs:36-41 *)
Definition st_eq (s s' : sstr) : out bool := obind (st_as_str s) (fun x => omap (slice_eq byte_eqb x) (st_as_str s')).
(* sized_str/cmp.rs:43-57: with a `str` or a String *)
Definition st_eq_str (s : sstr) (y : list byte) : out bool := omap (fun x => slice_eq byte_eqb x y) (st_as_str s).
(* sized_str/cmp.rs:29-34, and `partial_cmp`, 59-64 *)
Definition st_cmp (s s' : sstr) : out comparison := obind (st_as_str s) (fun x => omap (slice_cmp byte_cmp x) (st_as_str s')).
(* sized_str/cmp.rs:66-80 `partial_cmp` with a `str` or a String *)
Definition st_cmp_str (s : sstr) (y : list byte) : out comparison := omap (fun x => slice_cmp byte_cmp x y) (st_as_str s).
(* sized_str/mod.rs:180-185 `hash` *)
Definition st_hash (s : sstr) : out (list hash_call) := omap str_hash (st_as_str s).

(* sized_str/mod.rs:187-194 `Index` for a range of octets: `str::get` refuses ends that are not at a char boundary (or beyond the text) *)
Definition is_char_boundary (bs : list byte) (k : nat) : bool :=
  (k =? 0) || match nth_error bs k with Some b => negb (is_cont b) | None => k =? length bs end.
(* sized_str/mod.rs:187-194 *)
Definition st_index_range (s : sstr) (a b : nat) : out (list byte) :=
  obind (st_as_str s) (fun bs =>
    if (a <=? b) && is_char_boundary bs a && is_char_boundary bs b then Done (firstn (b - a) (skipn a bs)) else Panics PIndex).

(* core: `CharIndices::next` again and again, with `next_code_point` of core/src/str/validations.rs; its shifts and masks as products and
   remainders. Octets that are missing are not looked for: `unwrap_unchecked`. *)
Fixpoint char_indices_from (off : nat) (bs : list byte) : out (list (nat * Z)) :=
  match bs with
  | [] => Done []
  | x :: r =>
    if (b2z x <? 128)%Z then omap (cons (off, b2z x)) (char_indices_from (1 + off) r)
    else match r with
    | [] => Undefined UText
    | y :: r =>
      if (b2z x <? 224)%Z then omap (cons (off, b2z x mod 32 * 64 + b2z y mod 64)%Z) (char_indices_from (2 + off) r)
      else match r with
      | [] => Undefined UText
      | z :: r =>
        if (b2z x <? 240)%Z
        then omap (cons (off, b2z x mod 32 * 4096 + b2z y mod 64 * 64 + b2z z mod 64)%Z) (char_indices_from (3 + off) r)
        else match r with
        | [] => Undefined UText
        | w :: r =>
          omap (cons (off, b2z x mod 8 * 262144 + b2z y mod 64 * 4096 + b2z z mod 64 * 64 + b2z w mod 64)%Z) (char_indices_from (4 + off) r)
        end
      end
    end
  end.
(* sized_str/mod.rs:127-129 `chars`, 133-135 `char_indices`: everything that the iterators give *)
Definition st_char_indices (s : sstr) : out (list (nat * Z)) := obind (st_as_str s) (char_indices_from 0).
(* sized_str/mod.rs:127-129 *)
Definition st_chars (s : sstr) : out (list Z) := omap (map snd) (st_char_indices s).

(* sized_str/code.rs:27-45 `decode` *)
Definition st_decode (n : nat) : D (out sstr) :=
  dbind dec_usize (fun len =>
  dbind (dread (Z.to_nat len)) (fun bs => fun i =>
  match st_from_utf8 n bs with
  | Done (inr s) => (i, Ok (Done s))
  | Done (inl (BadUtf8 c k)) => (i, Err (DBad (DUtf8 c k)))
  | Done (inl (SmallBuffer e)) => (i, Err (DLen (DLength (le_capacity e) (le_len e))))
  | Panics p => (i, Panic p)
  | Undefined u => (i, Ok (Undefined u))
  end)).

(* sized_str/code.rs:49-56 `encode`: that of the text *)
Definition st_encode (s : sstr) : out E := omap enc_bytes (st_as_str s).
