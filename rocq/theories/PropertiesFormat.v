(* C112: formatting of the containers. *)
From Coq Require Import String.
From Verif Require Import Base Streams Utf8 Types Encode Decode Sized Mem SizedSlice SizedStr Slot SpecContainers ErrorText Format SpecFormat FormatProofs.
Local Open Scope list_scope.

(* C112: with any options, and whatever T prints, a SizedSlice prints as the slice of its items. *)
Theorem C112_slice : forall n A (item : options -> A -> list byte) o (s : sslice A), Reachable n s ->
  exists items, ss_as_slice s = Done items /\ ss_debug item o s = Done (slice_debug item o items).
Proof. exact @C112_slice_lemma. Qed.
Print Assumptions C112_slice.

(* a SizedStr prints as its text: `{…}` as str does, and `{…?}` whatever `<str as Debug>` prints *)
Theorem C112_str : forall n w s, StrReachable n w s -> exists x, st_as_str s = Done x /\
  (forall o, st_display o s = Done (str_display o x)) /\ (forall str_debug o, st_debug str_debug o s = Done (str_debug o x)).
Proof. exact @C112_str_lemma. Qed.
Print Assumptions C112_str.

(* which is: the items between brackets, separated by ", "; with `#`, each on a line of its own, indented by four spaces and followed by a comma *)
Theorem C112_slice_text : forall n A (item : options -> A -> list byte) o (s : sslice A), Reachable n s -> exists items, ss_as_slice s = Done items /\
  (alternate o = false -> ss_debug item o s = Done (txt "[" ++ joined (txt ", ") (map (item o) items) ++ txt "]")) /\
  (alternate o = true -> exists texts, Forall2 (fun x t => Indented (txt "    ") (item o x) t) items texts /\
     ss_debug item o s = Done (txt "[" ++ match items with [] => [] | _ => [x0a] ++ concat (map (fun t => t ++ txt "," ++ [x0a]) texts) end ++ txt "]")).
Proof. exact @C112_slice_text_lemma. Qed.
Print Assumptions C112_slice_text.

(* and: the chars of the text, as many as the precision allows, filled up to the width, on the side that the alignment says *)
Theorem C112_str_text : forall n w s, StrReachable n w s ->
  exists cs, st_as_str s = Done (flat_map encode_utf8 cs) /\ Forall (fun c => is_scalar c = true) cs /\
  forall o, let kept := match precision o with Some p => firstn p cs | None => cs end in
  exists a b, st_display o s = Done (concat (repeat (fill_char o) a) ++ flat_map encode_utf8 kept ++ concat (repeat (fill_char o) b)) /\
    a + b = match width o with Some w => w - List.length kept | None => 0 end /\
    match align o with Some ARight => b = 0 | Some ACenter => a <= b <= S a | _ => a = 0 end.
Proof. exact @C112_str_text_lemma. Qed.
Print Assumptions C112_str_text.

(* `to_string` and then `parse` gives an equal SizedStr *)
Theorem C112_parse : forall n w s, StrReachable n w s ->
  exists x s', st_display plain s = Done x /\ st_new n x = Done (inr s') /\ st_eq s s' = Done true.
Proof. exact @C112_parse_lemma. Qed.
Print Assumptions C112_parse.

(* a Slot prints as the slice of its octets does when there are no options *)
Theorem C112_slot_partial : forall s, slot_debug plain s = slice_debug u8_debug plain (slot_as_slice s).
Proof. exact @C112_plain_lemma. Qed.
Print Assumptions C112_slot_partial.

(* whatever the options, that is its octets in decimal, between brackets and separated by ", " *)
Theorem C112_slot_text : forall o s, exists texts, Forall2 (fun b t => Decimal (b2z b) t) (slot_as_slice s) texts /\
  slot_debug o s = txt "[" ++ joined (txt ", ") texts ++ txt "]".
Proof. exact @C112_text_lemma. Qed.
Print Assumptions C112_slot_text.

(* so two Slots print alike exactly when they hold the same octets *)
Theorem C112_slot_apart : forall o o' a b, slot_debug o a = slot_debug o' b <-> slot_as_slice a = slot_as_slice b.
Proof. exact @C112_apart_lemma. Qed.
Print Assumptions C112_slot_apart.

(* the octets of a SizedSlice of them: the number, in the base and the letters that `x` and `X` ask for, behind `0x` with `#`; filled up to the width, with
   zeros if `0` asks for it, and otherwise on the side that the alignment says *)
Theorem C112_octet : forall o b, exists pre zeros digits post, let prefix := match hex o with Some _ => if alternate o then txt "0x" else [] | None => [] end in
  u8_debug o b = concat (repeat (fill_char o) pre) ++ prefix ++ repeat x30 zeros ++ digits ++ concat (repeat (fill_char o) post) /\
  Numeral (match hex o with Some _ => 16 | None => 10 end) (match hex o with Some upper => upper | None => false end) (b2z b) digits /\
  pre + zeros + post = match width o with Some w => w - (List.length prefix + List.length digits) | None => 0 end /\
  if zero o then pre = 0 /\ post = 0
  else zeros = 0 /\ match align o with Some ALeft => pre = 0 | Some ACenter => pre <= post <= S pre | _ => post = 0 end.
Proof. exact @C112_octet_lemma. Qed.
Print Assumptions C112_octet.

(* but the options are lost: `{:x?}` and `{:#?}` print something else than for the slice *)
Theorem C112_slot_refuted : exists checks t cap ops s rs, slot_run checks t (slot_with_capacity cap) ops = (s, rs) /\
  slot_debug (Options false (Some false) false [x20] None None None) s <>
    slice_debug u8_debug (Options false (Some false) false [x20] None None None) (slot_as_slice s) /\
  slot_debug (Options true None false [x20] None None None) s <> slice_debug u8_debug (Options true None false [x20] None None None) (slot_as_slice s).
Proof. exact @C112_refutation. Qed.
Print Assumptions C112_slot_refuted.

(* `{:#04x?}` of a SizedSlice<u8, 3> that holds 1 and 255; `{:*^8.3}` of a SizedStr<9> that holds "aébc"; Slots *)
Example C112_case :
  (exists s, ss_new (@Some byte) 3 [x01; xff] = Done (inr s) /\ Reachable 3 s /\
     ss_debug u8_debug (Options true (Some false) true [x20] None (Some 4) None) s = Done (txt "[
    0x01,
    0xff,
]")) /\
  (exists s, st_new 9 [x61; xc3; xa9; x62; x63] = Done (inr s) /\
     st_display (Options false None false [x2a] (Some ACenter) (Some 8) (Some 3)) s = Done [x2a; x2a; x61; xc3; xa9; x62; x2a; x2a; x2a] /\
     st_display plain s = Done [x61; xc3; xa9; x62; x63]) /\
  slot_debug plain (Slot [x01; xff; x10; x00] 3) = txt "[1, 255, 16]" /\
  slot_debug plain (Slot [x0b] 1) <> slot_debug plain (Slot [x01; x01] 2) /\ slot_debug plain (Slot [] 0) = txt "[]".
Proof.
  split; [|split; [|split; [|split]]].
  - eexists. split; [vm_compute; reflexivity|]. split; [|vm_compute; reflexivity]. apply (@R_new 3 byte (@Some byte) [x01; xff]). vm_compute. reflexivity.
  - eexists. split; [vm_compute; reflexivity|]. split; vm_compute; reflexivity.
  - vm_compute. reflexivity.
  - vm_compute. discriminate.
  - vm_compute. reflexivity.
Qed.
