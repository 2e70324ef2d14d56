(* Formatting of the containers: `Debug` of SizedSlice, SizedStr and Slot, `Display` of SizedStr. Definitions only. *)
From Coq Require Import String Ascii.
From Verif Require Import Base Streams Utf8 Types Encode Decode Sized Mem SizedSlice SizedStr Slot ErrorText.
Set Implicit Arguments.
Local Open Scope list_scope.

(* ---- core *)

(* `fmt::Formatter`: what stands behind the colon in `{:…}`. The sign flags are left out: nothing here has a sign. *)
(* core: core/src/fmt/mod.rs *)
Inductive alignment := ALeft | ARight | ACenter.
(* core: core/src/fmt/mod.rs *)
Record options := Options {
  alternate : bool;              (* `#` *)
  hex : option bool;             (* `x?`: Some false; `X?`: Some true *)
  zero : bool;                   (* `0` *)
  fill_char : list byte;         (* a char, as UTF-8 *)
  align : option alignment;
  width : option nat;
  precision : option nat
}.
(* `{}` and `{:?}` *)
(* core: core/src/fmt/mod.rs *)
Definition plain : options := Options false None false [x20] None None None.

(* core: `Formatter::padding`: [s], filled up by [n] *)
Definition padding (o : options) (n : nat) (default : alignment) (s : list byte) : list byte :=
  let pre := match match align o with Some a => a | None => default end with ALeft => 0 | ARight => n | ACenter => n / 2 end in
  concat (repeat (fill_char o) pre) ++ s ++ concat (repeat (fill_char o) (n - pre)).

(* core: `Formatter::pad_integral` of a number that is not negative *)
Definition pad_integral (o : options) (prefix digits : list byte) : list byte :=
  let prefix := if alternate o then prefix else [] in
  let n := match width o with Some w => w - (List.length prefix + List.length digits) | None => 0 end in
  if zero o then prefix ++ repeat x30 n ++ digits else padding o n ARight (prefix ++ digits).

(* core: `{:x}`: the letters are small *)
Definition lower (c : byte) : byte := if (b2z c <? 65)%Z then c else z2b (b2z c + 32).

(* core: `<u8 as Debug>::fmt` *)
Definition u8_debug (o : options) (b : byte) : list byte :=
  let n := Z.to_N (b2z b) in
  match hex o with
  | Some false => pad_integral o (txt "0x") (map lower (radix 16 n))
  | Some true => pad_integral o (txt "0x") (radix 16 n)
  | None => pad_integral o [] (radix 10 n)
  end.

(* core: `PadAdapter`: four spaces before each line *)
Fixpoint indent (on_newline : bool) (s : list byte) : list byte :=
  match s with
  | [] => []
  | c :: r => (if on_newline then txt "    " else []) ++ c :: indent (b2z c =? 10)%Z r
  end.

(* core: `DebugList::entries` and `finish`, for `<[T] as Debug>::fmt`; [item] is that of T *)
Fixpoint entries {A} (item : options -> A -> list byte) (o : options) (first : bool) (l : list A) : list byte :=
  match l with
  | [] => []
  | x :: r =>
    (if alternate o then (if first then [x0a] else []) ++ indent true (item o x ++ [x2c; x0a])
     else (if first then [] else [x2c; x20]) ++ item o x) ++ entries item o false r
  end.
(* core: `<[T] as Debug>::fmt` *)
Definition slice_debug {A} (item : options -> A -> list byte) (o : options) (l : list A) : list byte :=
  [x5b] ++ entries item o true l ++ [x5d].

(* core: whether the octet starts a char *)
Definition starts_char (c : byte) : bool := negb ((128 <=? b2z c) && (b2z c <? 192))%Z.
(* core: `str::chars().count()` *)
Definition chars_count (s : list byte) : nat := List.length (filter starts_char s).
(* core: the first [n] chars of the text *)
Fixpoint chars_prefix (n : nat) (s : list byte) : list byte :=
  match s with
  | [] => []
  | c :: r => if starts_char c then match n with O => [] | S n' => c :: chars_prefix n' r end else c :: chars_prefix n r
  end.
(* core: `Formatter::pad`, for `<str as Display>::fmt` *)
Definition str_display (o : options) (s : list byte) : list byte :=
  let s := match precision o with Some p => chars_prefix p s | None => s end in
  match width o with
  | Some w => padding o (w - chars_count s) ALeft s
  | None => s
  end.

(* ---- the library *)

(* sized_slice/mod.rs:234-239 *)
Definition ss_debug {A} (item : options -> A -> list byte) (o : options) (s : sslice A) : out (list byte) :=
  omap (slice_debug item o) (ss_as_slice s).

(* sized_str/mod.rs:145-150 *)
Definition st_display (o : options) (s : sstr) : out (list byte) := omap (str_display o) (st_as_str s).
(* sized_str/mod.rs:138-143. [str_debug] is `<str as Debug>::fmt`, which quotes and escapes. *)
Definition st_debug (str_debug : options -> list byte -> list byte) (o : options) (s : sstr) : out (list byte) :=
  omap (str_debug o) (st_as_str s).

(* slot/mod.rs:356-359: `write!(f, "{:?}", …)` formats with options of its own, not with those of [f] *)
Definition slot_debug (o : options) (s : slot) : list byte := slice_debug u8_debug plain (slot_as_slice s).
