(* The rest of the repository's unit tests, and the examples of its documentation, run on the model by computation. As [RepoTests], these are tests of
   the model's fidelity, not proofs of properties. Sources: oct/src/{slot,sized_slice,sized_iter,sized_str}/tests.rs, oct/src/lib.rs, oct/src/slot/mod.rs,
   oct/src/encode/mod.rs, oct/src/encode/encode/mod.rs. *)
From Verif Require Import Base Streams Utf8 Types Traits Encode Decode Sized Slot Mem SizedSlice SizedIter SizedStr RepoTests.
Local Open Scope Z_scope.

(* an iterator over a list *)
Definition next_of {A} : iterator (list A) A := fun l => match l with [] => (None, []) | x :: l' => (Some x, l') end.

(* oct/src/slot/tests.rs:26-47 *)
Definition slot_char : slot := match slot_new (fun _ => 0%N) TChar with Some s => s | None => slot_with_capacity 0 end.
Example test_buf_write_read :
  let s1 := fst (slot_write true TChar slot_char (VChar 0x1F44D)) in
  let s2 := fst (slot_copy_from_slice s1 (B [0x00; 0xD8; 0x00; 0x00])) in
  let s3 := fst (slot_copy_from_slice s2 (B [0x3A; 0xFF; 0x00; 0x00])) in
  slot_eqb s1 (B [0x4D; 0xF4; 0x01; 0x00]) = true /\ slot_read TChar s2 = Err (DChar 0xD800) /\ slot_read TChar s3 = Ok (VChar 0xFF3A).
Proof. vm_compute. repeat split; reflexivity. Qed.

(* oct/src/sized_slice/tests.rs:26-47, with the numbers that `f` gives *)
Example test_sized_slice_from_iter :
  ss_eq_slice Z.eqb (fst (ss_from_iter next_of 16 [0; 708; 826; 19; 572; 919; 78; 431])) [0; 708; 826; 19; 572; 919; 78; 431] = Done true.
Proof. vm_compute. reflexivity. Qed.

(* oct/src/sized_iter/tests.rs:25-46 *)
Definition francais : list byte := B [0x66; 0x72; 0x61; 0x6E; 0xC3; 0xA7; 0x61; 0x69; 0x73].
Definition fronts {A} (k : nat) (i : siter A) : out (list (option A)) := omap fst (it_run (repeat Front k) i).
Definition items (l : list Z) : list (option byte) := map (fun z => Some (z2b z)) l ++ [None].
Example test_sized_iter_clone :
  match st_new 9 francais with
  | Done (inr s) =>
    match it_nth true (ss_into_iter (st_into_bytes s)) 4 with
    | Done (_, _, i) =>
      match it_clone Some i with
      | Done j => fronts 6 i = Done (items [0xC3; 0xA7; 0x61; 0x69; 0x73]) /\ fronts 6 j = Done (items [0xC3; 0xA7; 0x61; 0x69; 0x73])
      | _ => False
      end
    | _ => False
    end
  | _ => False
  end.
Proof. vm_compute. split; reflexivity. Qed.

(* oct/src/sized_iter/tests.rs:49-68 *)
Example test_sized_iter_double_ended :
  omap fst (it_run [Front; Back; Front; Back; Front; Back; Front; Back; Front; Back; Front]
    (ss_into_iter (ss_from_array [72; 69; 76; 76; 79; 32; 87; 79; 82; 76; 68]))) =
  Done [Some 72; Some 68; Some 69; Some 76; Some 76; Some 82; Some 76; Some 79; Some 79; Some 87; Some 32].
Proof. vm_compute. reflexivity. Qed.

(* oct/src/sized_str/tests.rs:27-30 *)
Definition hello_world : list Z := [104; 101; 108; 108; 111; 32; 119; 111; 114; 108; 100].
Example test_fixed_str_from_iter :
  obind (st_from_iter next_of 4 hello_world) (fun p => st_eq_str (fst p) (B [104; 101; 108; 108])) = Done true.
Proof. vm_compute. reflexivity. Qed.

(* oct/src/sized_str/tests.rs:33-53 *)
Definition text (n : nat) (l : list Z) : sstr := match st_new n (B l) with Done (inr s) => s | _ => st_default 0 end.
Definition string0 : sstr := text 12 [72; 101; 108; 108; 111; 32; 116; 104; 101; 114; 101; 33].
Definition string1 : sstr := text 18 [77; 69; 73; 78; 95; 71; 82; 79; 0xE1; 0xBA; 0x9E; 95; 71; 79; 84; 84].
Definition string2 : sstr := text 5 [72; 101; 108; 108; 111].
Example test_fixed_str_size :
  map (fun p => st_cmp (fst p) (snd p)) [(string0, string0); (string0, string1); (string0, string2); (string1, string0); (string1, string1);
    (string1, string2); (string2, string0); (string2, string1); (string2, string2)] = map Done [Eq; Lt; Gt; Gt; Eq; Gt; Lt; Lt; Eq] /\
  st_eq_str string0 (B [72; 101; 108; 108; 111; 32; 116; 104; 101; 114; 101; 33]) = Done true /\
  st_eq_str string1 (B [77; 69; 73; 78; 95; 71; 82; 79; 0xE1; 0xBA; 0x9E; 95; 71; 79; 84; 84]) = Done true /\
  st_eq_str string2 (B [72; 101; 108; 108; 111]) = Done true.
Proof. vm_compute. repeat split; reflexivity. Qed.

(* oct/src/sized_str/tests.rs:56-95 *)
Definition utf8_test (n : nat) (bs : list Z) : option (Z * nat) :=
  match st_from_utf8 n (B bs) with
  | Done (inl (BadUtf8 v i)) => Some (b2z v, i)
  | Done (inr _) => None
  | _ => Some (-1, 0%nat)
  end.
Example test_fixed_str_from_utf8 :
  utf8_test 3 [0x41; 0xF7; 0x63] = Some (0xF7, 1%nat) /\ utf8_test 4 [0x41; 0xC3; 0xB7; 0x63] = None /\
  utf8_test 4 [0x32; 0x30; 0x20; 0xAC] = Some (0xAC, 3%nat) /\ utf8_test 5 [0x32; 0x30; 0xE2; 0x82; 0xAC] = None.
Proof. vm_compute. repeat split; reflexivity. Qed.

(* oct/src/lib.rs:90-129 *)
Definition ints : ty := TStruct [TInt U8; TInt U16; TInt U32; TInt U64; TInt U128].
Definition ints_value : val :=
  VTuple [VInt 0; VInt 0x0201; VInt 0x06050403; VInt 0x0E0D0C0B0A090807; VInt 0x1E1D1C1B1A191817161514131211100F].
Example doc_ints :
  let s := fst (slot_write true ints (slot_with_capacity 256) ints_value) in
  slot_length s = 31%nat /\ slot_eqb s (B (map Z.of_nat (seq 0 31))) = true /\ slot_read ints s = Ok ints_value.
Proof. vm_compute. repeat split; reflexivity. Qed.

(* oct/src/lib.rs:142-151, 155-176 *)
Example doc_char : enc_test TChar (VChar 0x416) [0x16; 0x04; 0x00; 0x00] = true.
Proof. vm_compute. reflexivity. Qed.
Example doc_chain :
  fst (eseq (encode true TChar (VChar 0x644)) (eseq (encode true TChar (VChar 0x627)) (eseq (encode true TChar (VChar 0x645))
    (eseq (encode true TChar (VChar 0x62F)) (encode true TChar (VChar 0x627))))) (output_new (repeat x00 20))) =
  Output (B [0x44; 0x06; 0; 0; 0x27; 0x06; 0; 0; 0x45; 0x06; 0; 0; 0x2F; 0x06; 0; 0; 0x27; 0x06; 0; 0]) 20.
Proof. vm_compute. reflexivity. Qed.

(* oct/src/lib.rs:185-205 *)
Example doc_decode : forallb (fun b : bool => b)
  [ dec_test (TInt U16) [0x54; 0x45] (VInt 0x4554); dec_test (TInt U8) [0x54; 0x45] (VInt 0x54);
    dec_test (TTuple [TInt U8; TInt U8]) [0x54; 0x45] (VTuple [VInt 0x54; VInt 0x45]) ] = true.
Proof. vm_compute. reflexivity. Qed.

(* oct/src/slot/mod.rs:48-67 *)
Definition request : ty := TEnum Isize [(None, [TSizedStr 64]); (None, [TSizedStr 64]); (None, [TSizedStr 128])].
Definition epsilon : list Z := [101; 112; 115; 105; 108; 111; 110; 101; 114; 105; 100; 97; 110; 105].
Example doc_slot :
  match slot_new (fun _ => 0%N) request with
  | Some s => slot_eqb (fst (slot_write true request s (VEnum 0 [VStr (B epsilon)]))) (B ([0; 0; 14; 0] ++ epsilon)) = true
  | None => False
  end.
Proof. vm_compute. reflexivity. Qed.

(* oct/src/encode/mod.rs:69-97 *)
Definition num : ty := TEnum Isize [(Some 2, []); (None, []); (Some 0, []); (None, [])].
Example doc_num :
  let w s i := fst (slot_write true num s (VEnum i [])) in
  let s0 := w (slot_with_capacity 2) 2%nat in let s1 := w s0 3%nat in let s2 := w s1 0%nat in let s3 := w s2 1%nat in
  map (fun p => slot_eqb (fst p) (B (snd p))) [(s0, [0; 0]); (s1, [1; 0]); (s2, [2; 0]); (s3, [3; 0])] = [true; true; true; true].
Proof. vm_compute. reflexivity. Qed.

(* oct/src/lib.rs:229-311: the request and the response *)
Definition area : ty := TEnum Isize [(None, []); (None, []); (None, []); (None, [])].
Definition geo_request : ty := TEnum Isize [(None, [area]); (None, [area]); (None, [area])].
Definition geo_response : ty := TEnum Isize [(None, [TF64]); (None, [TF64]); (None, [TF64])].
Example doc_geo :
  enc_test geo_request (VEnum 2 [VEnum 0 []]) [2; 0; 0; 0] = true /\ dec_test geo_request [2; 0; 0; 0] (VEnum 2 [VEnum 0 []]) = true /\
  enc_test geo_response (VEnum 2 [VInt 0x4046333333333333]) [2; 0; 0x33; 0x33; 0x33; 0x33; 0x33; 0x33; 0x46; 0x40] = true /\
  size_test geo_request 4 = true /\ size_test geo_response 10 = true.
Proof. vm_compute. repeat split; reflexivity. Qed.
