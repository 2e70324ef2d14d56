(* The repository's own unit tests, transcribed and run on the model by computation. They are tests of the model's
   fidelity, not proofs of properties. Sources: oct/src/encode/encode/tests.rs, oct/src/decode/decode/tests.rs,
   oct/src/encode/sized_encode/tests.rs. *)
From Verif Require Import Base Streams Utf8 Types Traits Encode Decode Sized.
Local Open Scope Z_scope.

Definition B (l : list Z) : list byte := map z2b l.

(* the `test!` macro of encode/encode/tests.rs: a zeroed buffer of exactly the expected size *)
Definition enc_test (t : ty) (v : val) (bs : list Z) : bool :=
  match encode true t v (output_new (repeat x00 (length bs))) with
  | (o, Ok _) => bytes_eqb (output_as_slice o) (B bs)
  | _ => false
  end.
Definition dec_test (t : ty) (bs : list Z) (v : val) : bool :=
  match decode t (input_new (B bs)) with
  | (_, Ok v') => val_eqb v v'
  | _ => false
  end.
Definition size_test (t : ty) (n : N) : bool :=
  match max_size (fun _ => 0%N) t with Some m => N.eqb m n | None => false end.

Definition char_arr (l : list Z) : val := VSeq (map VChar l).
Definition bar : list (option Z * list ty) :=
  [(Some 69, []); (Some 127, [TBool]); (None, [TArray TChar 3])].
Definition unit_or_fields : list (option Z * list ty) :=
  [(None, []); (None, [TInt I32]); (None, [TInt U64])].

Example test_encode : forallb (fun b : bool => b)
  [ enc_test (TInt U8) (VInt 0) [0]; enc_test (TInt U8) (VInt 255) [255]; enc_test (TInt U8) (VInt 127) [127];
    enc_test (TInt U16) (VInt 0x0F7E) [0x7E; 0x0F];
    enc_test (TInt U32) (VInt 0x002F87E7) [0xE7; 0x87; 0x2F; 0x00];
    enc_test (TInt U64) (VInt 0xF337CF8BDB032B39) [0x39; 0x2B; 0x03; 0xDB; 0x8B; 0xCF; 0x37; 0xF3];
    enc_test (TInt U128) (VInt 0x45A0156A3677178A832E3C2C8410581A)
      [0x1A; 0x58; 0x10; 0x84; 0x2C; 0x3C; 0x2E; 0x83; 0x8A; 0x17; 0x77; 0x36; 0x6A; 0x15; 0xA0; 0x45];
    enc_test (TSizedStr 1) (VStr (B [0x41])) [0x01; 0x00; 0x41];
    enc_test (TSizedStr 36) (VStr (flat_map encode_utf8 [0x6C; 0xF8; 0x67; 0x6D; 0x61; 0xF0; 0x75; 0x72]))
      [0x0A; 0x00; 0x6C; 0xC3; 0xB8; 0x67; 0x6D; 0x61; 0xC3; 0xB0; 0x75; 0x72];
    enc_test (TArray TChar 5) (char_arr [0x03B4; 0x0190; 0x03BB; 0x03A4; 0x03B1])
      [0xB4; 0x03; 0x00; 0x00; 0x90; 0x01; 0x00; 0x00; 0xBB; 0x03; 0x00; 0x00; 0xA4; 0x03; 0x00; 0x00; 0xB1; 0x03; 0x00; 0x00];
    enc_test (TResult (TInt U16) TChar) (VOk (VInt 0x4545)) [0x00; 0x45; 0x45];
    enc_test (TResult (TInt U16) TChar) (VErr (VChar 0xFFFD)) [0x01; 0xFD; 0xFF; 0x00; 0x00];
    enc_test (TOption TUnit) VNone [0x00]; enc_test (TOption TUnit) (VSome VUnit) [0x01];
    enc_test (TVec (TInt U16)) (VSeq [VInt 0x8000; VInt 0x8000; VInt 0x8000]) [0x03; 0x00; 0x00; 0x80; 0x00; 0x80; 0x00; 0x80];
    enc_test TSystemTime (VTime 0 0) [0; 0; 0; 0; 0; 0; 0; 0];
    enc_test TSystemTime (VTime (-1) 0) [255; 255; 255; 255; 255; 255; 255; 255];
    enc_test TSystemTime (VTime 1 0) [1; 0; 0; 0; 0; 0; 0; 0] ] = true.
Proof. vm_compute; reflexivity. Qed.

Example test_encode_derive : forallb (fun b : bool => b)
  [ enc_test (TStruct [TChar]) (VTuple [VChar 0xFDF2]) [0xF2; 0xFD; 0x00; 0x00];
    enc_test (TEnum U8 bar) (VEnum 0 []) [0x45];
    enc_test (TEnum U8 bar) (VEnum 1 [VBool true]) [0x7F; 0x01];
    enc_test (TEnum U8 bar) (VEnum 2 [char_arr [0x54; 0x4C; 0]])
      [0x80; 0x54; 0x00; 0x00; 0x00; 0x4C; 0x00; 0x00; 0x00; 0x00; 0x00; 0x00; 0x00] ] = true.
Proof. vm_compute; reflexivity. Qed.

Example test_decode : forallb (fun b : bool => b)
  [ dec_test (TInt I8) [0x00] (VInt 0); dec_test (TInt I8) [0x7F] (VInt 127);
    dec_test (TInt I8) [0x80] (VInt (-128)); dec_test (TInt I8) [0xFF] (VInt (-1));
    dec_test (TInt I16) [0xFF; 0x7F] (VInt 0x7FFF); dec_test (TInt I16) [0x00; 0x80] (VInt (-0x8000));
    dec_test (TInt I16) [0xFF; 0xFF] (VInt (-1));
    dec_test (TInt I32) [0xFF; 0xFF; 0xFF; 0x7F] (VInt 0x7FFFFFFF); dec_test (TInt I32) [0; 0; 0; 0x80] (VInt (-0x80000000));
    dec_test (TInt I32) [0xFF; 0xFF; 0xFF; 0xFF] (VInt (-1));
    dec_test (TInt I64) [0xFF; 0xFF; 0xFF; 0xFF; 0xFF; 0xFF; 0xFF; 0x7F] (VInt 0x7FFFFFFFFFFFFFFF);
    dec_test (TInt I64) [0; 0; 0; 0; 0; 0; 0; 0x80] (VInt (-0x8000000000000000));
    dec_test (TInt I64) [0xFF; 0xFF; 0xFF; 0xFF; 0xFF; 0xFF; 0xFF; 0xFF] (VInt (-1));
    dec_test (TInt U128) [0x7F; 0x8F; 0x6F; 0x9F; 0x5F; 0xAF; 0x4F; 0xBF; 0x3F; 0xCF; 0x2F; 0xDF; 0x1F; 0xEF; 0x0F; 0xFF]
      (VInt 0xFF0FEF1FDF2FCF3FBF4FAF5F9F6F8F7F);
    dec_test TChar [0xFD; 0xFF; 0x00; 0x00] (VChar 0xFFFD);
    dec_test (TArray TChar 5)
      [0xBB; 0x03; 0x00; 0x00; 0x91; 0x03; 0x00; 0x00; 0xBC; 0x03; 0x00; 0x00; 0x94; 0x03; 0x00; 0x00; 0xB1; 0x03; 0x00; 0x00]
      (char_arr [0x03BB; 0x0391; 0x03BC; 0x0394; 0x03B1]);
    dec_test (TOption TUnit) [0] VNone; dec_test (TOption TUnit) [1] (VSome VUnit);
    dec_test (TResult TUnit (TInt I8)) [0; 0] (VOk VUnit); dec_test (TResult TUnit (TInt I8)) [1; 0x7F] (VErr (VInt 127));
    dec_test (TVec (TInt U16)) [2; 0; 0xBB; 0xAA; 0xDD; 0xCC] (VSeq [VInt 0xAABB; VInt 0xCCDD]);
    dec_test TString [6; 0; 0xE6; 0x97; 0xA5; 0xE6; 0x9C; 0xAC] (VStr (flat_map encode_utf8 [0x65E5; 0x672C])) ] = true.
Proof. vm_compute; reflexivity. Qed.

Example test_decode_derive : forallb (fun b : bool => b)
  [ dec_test (TStruct [TInt I32; TInt U64]) [1; 0; 0; 0; 0; 0xE1; 0x0B; 0x5E; 0; 0; 0; 0] (VTuple [VInt 1; VInt 1577836800]);
    dec_test (TStruct [TInt U8]) [0x80] (VTuple [VInt 0x80]);
    dec_test (TStruct []) [] (VTuple []);
    dec_test (TEnum Isize unit_or_fields) [0; 0; 0; 0; 0; 0; 0; 0; 0; 0] (VEnum 0 []);
    dec_test (TEnum Isize unit_or_fields) [1; 0; 0xFF; 0xFF; 0xFF; 0xFF; 0; 0; 0; 0] (VEnum 1 [VInt (-1)]);
    dec_test (TEnum Isize unit_or_fields) [2; 0; 0x4C; 0xC8; 0xC5; 0x66; 0; 0; 0; 0] (VEnum 2 [VInt 1724237900]) ] = true.
Proof. vm_compute; reflexivity. Qed.

Example test_sized_encode : forallb (fun b : bool => b)
  [ size_test TBool 1; size_test TChar 4; size_test TF32 4; size_test TF64 8; size_test (TInt I128) 16; size_test (TInt I16) 2;
    size_test (TInt I32) 4; size_test (TInt I64) 8; size_test (TInt I8) 1; size_test (TInt Isize) 2; size_test (TSizedStr 69) 71;
    size_test TInfallible 0; size_test TIpAddr 17; size_test TIpv4 4; size_test TIpv6 16;
    size_test (TOption (TNonZero I128)) 17; size_test (TOption (TNonZero I16)) 3; size_test (TOption (TNonZero Isize)) 3;
    size_test TPhantomData 0; size_test TSockAddr 27; size_test TSockV4 6; size_test TSockV6 26; size_test (TInt U128) 16;
    size_test (TInt Usize) 2; size_test TUnit 0;
    size_test (TStruct [TChar]) 4; size_test (TEnum I64 bar) 20 ] = true.
Proof. vm_compute; reflexivity. Qed.
