(* C01-C04: the streams. *)
From Verif Require Import Base Streams SpecStreams StreamProofs.

(* C01: whatever was written, and whatever failed in between, the output holds exactly the accepted data. *)
Theorem C01_output_history : forall buf ds o rs, run_writes (output_new buf) ds = (o, rs) ->
  length rs = length ds /\
  output_as_slice o = concat (accepted ds rs) /\
  output_position o = length (concat (accepted ds rs)) /\
  output_capacity o = length buf /\
  output_position o <= output_capacity o /\
  output_remaining o = length buf - length (concat (accepted ds rs)) /\
  skipn (output_position o) (o_buf o) = skipn (output_position o) buf.
Proof. exact output_history. Qed.
Print Assumptions C01_output_history.

(* the second of three writes fails, the others succeed *)
Example C01_case :
  run_writes (output_new [xff; xff; xff; xff]) [[x01; x02]; [x03; x04; x05]; [x06]] =
  (Output [x01; x02; x06; xff] 3, [Ok tt; Err (StreamError 4 2 3); Ok tt]) /\
  accepted [[x01; x02]; [x03; x04; x05]; [x06]] [Ok tt; Err (StreamError 4 2 3); Ok tt] = [[x01; x02]; [x06]].
Proof. vm_compute. split; reflexivity. Qed.

(* C02: in every state that calls can reach (there the position is within the capacity, by C01), a write fails exactly when the
   data do not fit, reports the three numbers, and leaves the stream as it was. *)
Theorem C02_failed_write : forall o d, output_position o <= output_capacity o ->
  (output_write o d = (o, Err (StreamError (output_capacity o) (output_position o) (length d)))
     /\ output_remaining o < length d) \/
  (exists o', output_write o d = (o', Ok tt) /\ length d <= output_remaining o).
Proof. exact write_failure. Qed.
Print Assumptions C02_failed_write.

Example C02_case : output_write (Output [x01; x02; x06; xff] 3) [x07; x08] =
                     (Output [x01; x02; x06; xff] 3, Err (StreamError 4 3 2)).
Proof. vm_compute. reflexivity. Qed.

(* C03: after any history of reads the pieces handed out are the first bytes of the buffer, which is unchanged; and the next
   call, whatever it is, hands out the next bytes, or fails because too few remain and then changes nothing. *)
Theorem C03_input_history : forall buf cs i rs, run_reads (input_new buf) cs = (i, rs) ->
  length rs = length cs /\
  i_buf i = buf /\
  input_position i <= input_capacity i /\
  concat (pieces rs) = firstn (input_position i) buf /\
  input_position i = length (concat (pieces rs)) /\
  forall c, (exists i', in_step i c = (i', Ok (firstn (in_count c) (skipn (input_position i) buf))) /\
                        i_buf i' = buf /\ input_position i' = input_position i + in_count c /\
                        in_count c <= input_remaining i) \/
            (in_step i c = (i, Err (StreamError (length buf) (input_position i) (in_count c))) /\
             input_remaining i < in_count c).
Proof. exact input_history. Qed.
Print Assumptions C03_input_history.

Theorem C03_read_into_buffer : forall i dst i' dst' r, input_read_into i dst = (i', dst', r) ->
  match r with Ok _ => length dst' = length dst | _ => dst' = dst end.
Proof. exact read_into_dst. Qed.
Print Assumptions C03_read_into_buffer.

Example C03_case :
  run_reads (input_new [x01; x02; x03; x04; x05]) [Read 2; ReadInto [x00; x00; x00; x00]; ReadInto [x00; x00]; Read 0] =
  (Input [x01; x02; x03; x04; x05] 4, [Ok [x01; x02]; Err (StreamError 5 2 4); Ok [x03; x04]; Ok []]).
Proof. vm_compute. reflexivity. Qed.

(* C04: equality looks at the accepted data only: not at the capacities, not at what the buffers held, not at the octets
   that follow, not at how the data were split into calls. *)
Theorem C04_output_equality : forall bufa dsa a rsa bufb dsb b rsb,
  run_writes (output_new bufa) dsa = (a, rsa) -> run_writes (output_new bufb) dsb = (b, rsb) ->
  (output_eqb a b = true <-> concat (accepted dsa rsa) = concat (accepted dsb rsb)).
Proof. exact output_eq_history. Qed.
Print Assumptions C04_output_equality.
Theorem C04_output_equality_slice : forall buf ds o rs s, run_writes (output_new buf) ds = (o, rs) ->
  (output_eqb_slice o s = true <-> concat (accepted ds rs) = s).
Proof. exact output_eq_slice_history. Qed.
Print Assumptions C04_output_equality_slice.

(* one accepted and one refused write into three octets, against two accepted writes into two octets *)
Example C04_history_case :
  run_writes (output_new [xff; xff; xff]) [[x01; x02]; [x03; x04]] = (Output [x01; x02; xff] 2, [Ok tt; Err (StreamError 3 2 2)]) /\
  run_writes (output_new [x00; x00]) [[x01]; [x02]] = (Output [x01; x02] 2, [Ok tt; Ok tt]) /\
  output_eqb (Output [x01; x02; xff] 2) (Output [x01; x02] 2) = true.
Proof. vm_compute. repeat split; reflexivity. Qed.
Example C04_case : output_eqb (Output [x01; x02; x03] 2) (Output [x01; x02] 2) = true /\
                   output_eqb (Output [x01; x02; x03] 2) (Output [x01; x02] 1) = false /\
                   output_eqb_slice (Output [x01; x02; x03] 2) [x01; x02] = true.
Proof. vm_compute. repeat split; reflexivity. Qed.
