(* The templates of the derive macros, and what they produce. The templates in SourceMacros.v are written by tools/rust2v.py from the text of
   /repo/oct-macros/src. Definitions only. *)
From Verif Require Import Base SourceNames Types Macro.

(* oct-macros/src: `( )`, `[ ]` and `{ }` *)
Inductive delim := DParen | DBracket | DBrace.

(* tokens. A punctuation mark of several characters, such as `::`, is one token; raw identifiers are as without `r#`; spans are left out. *)
(* proc_macro2: `TokenTree` *)
Inductive token :=
| TId (s : list byte)                      (* an identifier or keyword *)
| TPunct (s : list byte)
| TLit (s : list byte)                     (* a literal, as it is written *)
| TLife (s : list byte)                    (* a lifetime, without the quote *)
| TParam (p : gparam)                      (* a generic parameter as its author wrote it, with bounds and default *)
| TWhere (s : list byte)                   (* a `where` clause as its author wrote it *)
| TType (s : list byte)                    (* part of a type as its author wrote it *)
| TGroup (d : delim) (ts : list token).

(* what stands in `quote! { .. }` *)
(* quote: `quote!` *)
Inductive tmpl :=
| QTok (t : token)
| QHole (x : name)                         (* `#x` *)
| QGroup (d : delim) (qs : list tmpl)
| QRep (qs : list tmpl).                   (* `#( .. )*` *)
