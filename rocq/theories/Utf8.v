(* UTF-8 as the crate uses it: `core::str::from_utf8` and `char::encode_utf8`. Both belong to core and are trusted; they
   are transcribed here so that their results are data. Definitions only. *)
From Verif Require Import Base.
Set Implicit Arguments.
Local Open Scope Z_scope.

(* A Unicode scalar value: what a Rust `char` must be. *)
Definition is_scalar (c : Z) : bool :=
  ((0 <=? c) && (c <=? 55295)) || ((57344 <=? c) && (c <=? 1114111)).  (* 0..=0xD7FF, 0xE000..=0x10FFFF *)

(* `char::len_utf8`, called at oct/src/sized_str/mod.rs:160 *)
Definition len_utf8 (c : Z) : nat :=
  if c <? 128 then 1%nat else if c <? 2048 then 2%nat else if c <? 65536 then 3%nat else 4%nat.

(* `char::encode_utf8`, called at oct/src/sized_str/mod.rs:168 and conv.rs:321: the shifts and masks of core, as
   divisions and remainders. *)
Definition encode_utf8 (c : Z) : list byte :=
  if c <? 128 then [z2b c]
  else if c <? 2048 then [z2b (192 + c / 64); z2b (128 + c mod 64)]
  else if c <? 65536 then [z2b (224 + c / 4096); z2b (128 + c / 64 mod 64); z2b (128 + c mod 64)]
  else [z2b (240 + c / 262144); z2b (128 + c / 4096 mod 64); z2b (128 + c / 64 mod 64); z2b (128 + c mod 64)].

(* core: the range patterns `lo..=hi` of core/src/str/validations.rs *)
Definition between (lo hi z : Z) : bool := (lo <=? z) && (z <=? hi).

(* a continuation octet: `(b as i8) < -64`, that is 0x80..=0xBF *)
Definition is_cont (b : byte) : bool := between 128 191 (b2z b).

(* the second octet allowed after the first one of a three-octet (four-octet) sequence, core/src/str/validations.rs *)
Definition second3_ok (f s : byte) : bool :=
  let f := b2z f in let s := b2z s in
  ((f =? 224) && between 160 191 s) || (between 225 236 f && between 128 191 s) ||
  ((f =? 237) && between 128 159 s) || (between 238 239 f && between 128 191 s).
Definition second4_ok (f s : byte) : bool :=
  let f := b2z f in let s := b2z s in
  ((f =? 240) && between 144 191 s) || (between 241 243 f && between 128 191 s) || ((f =? 244) && between 128 143 s).

(* `run_utf8_validation` of core/src/str/validations.rs, which `str::from_utf8` calls (used at
   oct/src/decode/decode/mod.rs:710 and oct/src/sized_str/conv.rs:63). [off] is the number of octets accepted so far. The
   result is `None` for valid text, or `Some(valid_up_to)`. The block-wise skipping of ASCII in core is an optimisation and left out. *)
Fixpoint utf8_run (off : nat) (bs : list byte) : option nat :=
  match bs with
  | [] => None
  | f :: r =>
    if b2z f <? 128 then utf8_run (S off) r
    else if between 194 223 (b2z f) then
      match r with
      | s :: r => if is_cont s then utf8_run (2 + off)%nat r else Some off
      | _ => Some off
      end
    else if between 224 239 (b2z f) then
      match r with
      | s :: t :: r => if second3_ok f s && is_cont t then utf8_run (3 + off)%nat r else Some off
      | _ => Some off
      end
    else if between 240 244 (b2z f) then
      match r with
      | s :: t :: u :: r => if second4_ok f s && is_cont t && is_cont u then utf8_run (4 + off)%nat r else Some off
      | _ => Some off
      end
    else Some off
  end.

(* `str::from_utf8(bs)`, keeping only what the crate looks at: `Ok`, or `Err(e)` with `e.valid_up_to()`. *)
(* Called at oct/src/decode/decode/mod.rs:710 and oct/src/sized_str/conv.rs:60 *)
Definition from_utf8 (bs : list byte) : option nat := utf8_run 0 bs.
