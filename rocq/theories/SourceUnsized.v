(* Generated by tools/rust2v.py from oct/src. Do not edit. *)
From Verif Require Import Base SourceNames SourceSyntax.
Local Open Scope list_scope.

(* oct/src/encode/encode/mod.rs, oct/src/sized_slice/code.rs, oct/src/sized_str/code.rs: the types of the implementations that have parameters with `?Sized`, and these parameters *)
Definition src_encode_unsized : list (rty * list name) := [
  (* oct/src/encode/encode/mod.rs:149 *) ((YRef false (YPath [(id_T, [])])), [id_T]);
  (* oct/src/encode/encode/mod.rs:158 *) ((YRef true (YPath [(id_T, [])])), [id_T]);
  (* oct/src/encode/encode/mod.rs:219 *) ((YPath [(id_Arc, [(YPath [(id_T, [])])])]), [id_T]);
  (* oct/src/encode/encode/mod.rs:265 *) ((YPath [(id_Box, [(YPath [(id_T, [])])])]), [id_T]);
  (* oct/src/encode/encode/mod.rs:294 *) ((YPath [(id_Cow, [(YPath [(id_T, [])])])]), [id_T]);
  (* oct/src/encode/encode/mod.rs:497 *) ((YPath [(id_Mutex, [(YPath [(id_T, [])])])]), [id_T]);
  (* oct/src/encode/encode/mod.rs:617 *) ((YPath [(id_Rc, [(YPath [(id_T, [])])])]), [id_T]);
  (* oct/src/encode/encode/mod.rs:626 *) ((YPath [(id_RefCell, [(YPath [(id_T, [])])])]), [id_T]);
  (* oct/src/encode/encode/mod.rs:678 *) ((YPath [(id_RwLock, [(YPath [(id_T, [])])])]), [id_T])].

(* oct/src/decode/decode/mod.rs, oct/src/sized_slice/code.rs, oct/src/sized_str/code.rs: the types of the implementations that have parameters with `?Sized`, and these parameters *)
Definition src_decode_unsized : list (rty * list name) := [].

(* oct/src/encode/sized_encode/mod.rs, oct/src/sized_slice/code.rs, oct/src/sized_str/code.rs: the types of the implementations that have parameters with `?Sized`, and these parameters *)
Definition src_sizes_unsized : list (rty * list name) := [].
