(* The same program with a sender that looks at the result of `write`. *)
From Verif Require Import Exchange.

Definition looking (op : xop) : xop := match op with XPost _ v => XPost true v | _ => op end.
