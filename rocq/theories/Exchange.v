(* The exchange of messages that the documentation shows (oct/src/lib.rs:207-311): one party writes values to a Slot and sends it, another receives
   into a Slot and reads it. The network loses, repeats and reorders datagrams, and does not change them. Definitions only. *)
From Verif Require Import Base Streams Types Encode Decode Sized Slot.
Set Implicit Arguments.

(* `socket.recv(&mut slot)` (lib.rs:277, 304): through DerefMut, slot/mod.rs:376-382, the socket is given the whole buffer; it stores the datagram, or as
   much of it as there is room for, at the start and returns the number of octets stored. *)
Definition slot_recv (s : slot) (data : list byte) : slot * nat :=
  let n := Nat.min (length data) (slot_capacity s) in
  (Slot (firstn n data ++ skipn n (s_buf s)) (s_len s), n).

(* the Slot of the sender, the datagrams that may still be delivered, and the Slot of the receiver *)
(* oct/src/lib.rs:260-311 *)
Record exchange := Exchange { x_sender : slot; x_net : list (list byte); x_receiver : slot }.

Inductive xop :=
| XPost (careful : bool) (v : val)    (* `slot.write(v)`; `socket.send(&slot)`. Careful: only if the write succeeds (lib.rs:287-288 with
                                         `unwrap`); not careful: in any case (lib.rs:299-300, without it) *)
| XDeliver (k : nat) (mark : bool)    (* the network delivers datagram k; the receiver calls `set_len` (lib.rs:278) or does not (lib.rs:304) *)
| XLose (k : nat).                    (* the network loses datagram k *)

(* (what an observer sees; no code of its own) *)
Inductive xevent := XSent (data : list byte) | XUnsent | XDelivered (data : list byte) | XNothing.

(* oct/src/lib.rs:270-311 *)
Definition xstep (checks : bool) (t : ty) (x : exchange) (op : xop) : exchange * xevent :=
  match op with
  | XPost careful v =>
    let (s, r) := slot_write checks t (x_sender x) v in
    match r, careful with
    | Ok _, _ | _, false => (Exchange s (x_net x ++ [slot_as_slice s]) (x_receiver x), XSent (slot_as_slice s))
    | _, true => (Exchange s (x_net x) (x_receiver x), XUnsent)
    end
  | XDeliver k mark =>
    match nth_error (x_net x) k with
    | None => (x, XNothing)
    | Some data =>
      let (s, n) := slot_recv (x_receiver x) data in
      (Exchange (x_sender x) (x_net x) (if mark then fst (slot_set_len s n) else s), XDelivered data)
    end
  | XLose k => (Exchange (x_sender x) (firstn k (x_net x) ++ skipn (S k) (x_net x)) (x_receiver x), XNothing)
  end.

(* (a program's and a network's history; no code of its own) *)
Fixpoint xrun (checks : bool) (t : ty) (x : exchange) (ops : list xop) : exchange * list xevent :=
  match ops with
  | [] => (x, [])
  | op :: ops' => let (x1, e) := xstep checks t x op in let (x2, es) := xrun checks t x1 ops' in (x2, e :: es)
  end.

(* what was delivered last *)
(* (auxiliary) *)
Fixpoint last_delivered (es : list xevent) : option (list byte) :=
  match es with
  | [] => None
  | e :: es' => match last_delivered es', e with Some d, _ => Some d | None, XDelivered d => Some d | None, _ => None end
  end.
