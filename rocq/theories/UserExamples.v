(* Two types of users, used by the examples and refutations of C99 and C100. *)
From Coq Require Import Lia ZifyBool ZifyNat ZifyN.
From Verif Require Import Base BaseFacts Streams StreamFacts Utf8 Types TypesFacts Traits Encode Decode Sized Slot Spec SpecCalls
  EncodeFacts WireFacts EncodeCases EncodeProofs DecodeFacts RoundTrip SizeProofs User SpecUser UserProofs UserSafety UserSize.
Set Implicit Arguments.
Local Open Scope Z_scope.

(* `struct Tag(Vec<u8>)`: the length in one octet, then the octets; longer ones are an error. *)
Definition tag : impl := Impl
  (fun v => match v with
            | VStr bs => if Z.of_nat (length bs) <? 256 then eseq (ewrite (le_bytes 1 (Z.of_nat (length bs)))) (ewrite bs)
                         else eerror (EUsize (Z.of_nat (length bs)))
            | _ => epanic PStuck
            end)
  (dbind dec_u8 (fun n => dmap VStr (dread (Z.to_nat n)))).
Definition tag_contract : contract := Contract (fun v => exists bs, v = VStr bs) (fun v v' => v' = v).

(* `struct Cached { n: u8, cache: u8 }`: the cache is not encoded, and 0 after decoding. *)
Definition cached : impl := Impl
  (fun v => match v with VTuple [VInt n; VInt _] => ewrite (le_bytes 1 n) | _ => epanic PStuck end)
  (dbind dec_u8 (fun n => dok (VTuple [VInt n; VInt 0]))).
Definition cached_contract : contract :=
  Contract (fun v => exists n c, v = VTuple [VInt n; VInt c] /\ 0 <= n < 256)
           (fun v v' => exists n c c', v = VTuple [VInt n; VInt c] /\ v' = VTuple [VInt n; VInt c']).

(* `struct Marker;`, which takes no memory: a constant octet. *)
Definition marker : impl := Impl
  (fun v => match v with VUnit => ewrite [x2a] | _ => epanic PStuck end)
  (dbind dec_u8 (fun _ => dok VUnit)).
Definition marker_contract : contract := Contract (fun v => v = VUnit) (fun v v' => v' = v).

Definition users (k : nat) : impl := match k with O => tag | 1%nat => cached | _ => marker end.
Definition promises (k : nat) : contract := match k with O => tag_contract | 1%nat => cached_contract | _ => marker_contract end.

Lemma sends_write bs : Sends (ewrite bs) bs (Ok tt).
Proof. rewrite <- (app_nil_r bs) at 2. apply (sends_traces (T_ewrite bs)). Qed.

Lemma users_honour k : Honours (users k) (promises k).
Proof.
  destruct k as [|[|k]]; intros v; cbn.
  - intros [bs ->]. destruct (Z.ltb_spec (Z.of_nat (length bs)) 256) as [Hl|Hl].
    + exists (le_bytes 1 (Z.of_nat (length bs)) ++ bs), (Ok tt). split; [apply sends_seq; apply sends_write|].
      intros _. exists (VStr bs). split; [|reflexivity]. eapply P_bind; [apply P_unsigned; cbn; lia|].
      apply (P_map VStr). rewrite Nat2Z.id. apply P_read.
    + exists [], (Err (EUsize (Z.of_nat (length bs)))). split; [apply (sends_traces (T_eerror _)) | discriminate].
  - intros (n & c & -> & Hn). exists (le_bytes 1 n), (Ok tt). split; [apply sends_write|]. intros _. exists (VTuple [VInt n; VInt 0]).
    split; [|eauto 6]. eapply P_bind_last; [apply P_unsigned; cbn; lia | apply P_ok].
  - intros ->. exists [x2a], (Ok tt). split; [apply sends_write|]. intros _. exists VUnit. split; [|reflexivity].
    apply P_octet, P_ok.
Qed.

Lemma users_only_write k v : OnlyWrites (u_encode (users k) v).
Proof.
  assert (Hw : forall bs, OnlyWrites (ewrite bs)).
  { intros bs o. unfold ewrite. destruct (output_write o bs) as [o' [a|e|p]] eqn:E; (eapply Wrote_more; [apply Wrote_nothing | exact E]). }
  assert (Hp : forall p, OnlyWrites (epanic p)) by (intros p o; apply Wrote_nothing).
  destruct k as [|[|k]]; cbn.
  - destruct v; try apply Hp. destruct (Z.of_nat (length bs) <? 256); [|intros o; apply Wrote_nothing].
    apply (@keeps_seq Wrote wrote_trans); apply Hw.
  - destruct v as [| | | | | | | |vs| | | | | | | | | | | | | | | | | | | | | | | | |]; try apply Hp.
    destruct vs as [|[] [|[] [|]]]; try apply Hp. apply Hw.
  - destruct v; first [apply Hp | apply Hw].
Qed.

Lemma users_only_read k : OnlyReads (u_decode (users k)).
Proof.
  assert (Hr : forall i n, Took i (fst (input_read i n))).
  { intros i n. destruct (input_read i n) as [i' q] eqn:E. eapply Took_more; [apply Took_nothing | exact E]. }
  destruct k as [|[|k]]; cbn.
  - apply (@kd_bind Took took_trans); [apply (@kd_unsigned Took); eauto using Took_nothing, took_trans|].
    intros n. apply (@kd_map Took); eauto using Took_nothing, took_trans. apply (@kd_read Took); auto.
  - apply (@kd_bind Took took_trans); [apply (@kd_unsigned Took); eauto using Took_nothing, took_trans|].
    intros n i. apply Took_nothing.
  - apply (@kd_bind Took took_trans); [apply (@kd_unsigned Took); eauto using Took_nothing, took_trans|].
    intros n i. apply Took_nothing.
Qed.

(* C99 without the condition on SizedSlice: one item in a SizedSlice with room for two *)
Lemma C99_containers_refuted_lemma : exists bs,
  Honours cached cached_contract /\ c_valid cached_contract (VTuple [VInt 7; VInt 1]) /\
  Sends (uencode true (fun _ => cached) (USizedSlice (UUser 0) 2) (VSeq [VTuple [VInt 7; VInt 1]])) bs (Ok tt) /\
  forall v', ~ Yields (udecode (fun _ => cached) (USizedSlice (UUser 0) 2)) bs v'.
Proof.
  exists ([x01; x00] ++ [x07]). split; [exact (users_honour 1%nat)|]. split; [cbn; exists 7, 1; split; [reflexivity | lia]|]. split.
  - cbn [uencode]. unfold enc_slice. apply sends_seq.
    + apply (@sends_map_err ELen (enc_usize 1) [x01; x00] (Ok tt)). apply sends_write.
    + rewrite <- (app_nil_r [x07]). apply sends_seq; [|apply sends_ok].
      apply (@sends_map_err (EItem 0) (ewrite [x07]) [x07] (Ok tt)). apply sends_write.
  - intros v' H. specialize (H [] []). vm_compute in H. discriminate H.
Qed.

(* C101 without the condition: the length of a SizedSlice is not counted, and for a Result memory is counted instead of octets *)
Lemma C101_refuted_lemma :
  (exists n o o', (forall v, c_valid cached_contract v -> WithinSize (u_encode cached v) 1) /\
     (forall so uso, umax_size (fun _ => Some 1%N) so uso (USizedSlice (UUser 0) 1) = Some n) /\
     Typed (fun _ => cached_contract) (USizedSlice (UUser 0) 1) (VSeq [VTuple [VInt 7; VInt 1]]) /\ output_position o = 0%nat /\
     uencode true (fun _ => cached) (USizedSlice (UUser 0) 1) (VSeq [VTuple [VInt 7; VInt 1]]) o = (o', Ok tt) /\ (n < N.of_nat (output_position o'))%N) /\
  (forall so uso, uso (UUser 0) = 0%N -> uso (UStd TUnit) = 0%N -> exists n o o',
     (forall v, c_valid marker_contract v -> WithinSize (u_encode marker v) 1) /\
     umax_size (fun _ => Some 1%N) so uso (UResult (fun e => e) (UUser 0) (UStd TUnit)) = Some n /\
     Typed (fun _ => marker_contract) (UResult (fun e => e) (UUser 0) (UStd TUnit)) (VOk VUnit) /\ output_position o = 0%nat /\
     uencode true (fun _ => marker) (UResult (fun e => e) (UUser 0) (UStd TUnit)) (VOk VUnit) o = (o', Ok tt) /\
     (n < N.of_nat (output_position o'))%N).
Proof.
  assert (Hc : c_valid cached_contract (VTuple [VInt 7; VInt 1])) by (exists 7, 1; split; [reflexivity | lia]).
  split.
  - exists 1%N, (output_new [x00; x00; x00]). eexists. split; [|split; [|split; [|split; [|split]]]].
    + intros v (n & c & -> & Hn). apply w_within, B_write. rewrite le_bytes_length. lia.
    + reflexivity.
    + cbn. split; [lia|]. constructor; [exact Hc | constructor].
    + reflexivity.
    + vm_compute. reflexivity.
    + reflexivity.
  - intros so uso H1 H2. exists 1%N, (output_new [x00; x00; x00]). eexists. split; [|split; [|split; [|split; [|split]]]].
    + intros v ->. apply w_within, B_write. reflexivity.
    + cbn. rewrite H1, H2. reflexivity.
    + reflexivity.
    + reflexivity.
    + vm_compute. reflexivity.
    + reflexivity.
Qed.
