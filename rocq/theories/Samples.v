(* A non-trivial type and value that the examples beside the properties use. Definitions only. *)
From Verif Require Import Base Types.
Local Open Scope Z_scope.

(* struct { Vec<Option<u16>>, String, enum (u8) { A = 69, B(bool, i32), C { usize } }, Box<Cow<str>>, [isize; 2], Bound<NonZero<u32>> } *)
Definition sample_enum : ty := TEnum U8 [(Some 69, []); (None, [TBool; TInt I32]); (None, [TInt Usize])].
Definition sample_ty : ty :=
  TStruct [TVec (TOption (TInt U16)); TString; sample_enum; TWrap WBox (TCow TStr); TArray (TInt Isize) 2; TBound (TNonZero U32)].
Definition sample_val : val :=
  VTuple [VSeq [VSome (VInt 513); VNone]; VStr [x68; xc3; xa9]; VEnum 1 [VBool true; VInt (-2)];
          VWrap (VCow true (VStr [x61])); VSeq [VInt (-1); VInt 32767]; VExcluded (VInt 7)].
Definition sample_bytes : list byte :=
  [x02; x00; x01; x01; x02; x00;               (* 2 items: Some(513), None *)
   x03; x00; x68; xc3; xa9;                    (* "hé" *)
   x46; x01; xfe; xff; xff; xff;               (* B(true, -2): discriminant 70 *)
   x01; x00; x61;                              (* "a" *)
   xff; xff; xff; x7f;                         (* [-1, 32767] *)
   x01; x07; x00; x00; x00].                   (* Excluded(7) *)

(* the same with a usize that cannot be encoded, in the enum *)
Definition sample_bad : val :=
  VTuple [VSeq [VSome (VInt 513); VNone]; VStr [x68; xc3; xa9]; VEnum 2 [VInt 65536];
          VWrap (VCow true (VStr [x61])); VSeq [VInt (-1); VInt 32767]; VExcluded (VInt 7)].

(* with a largest encoding *)
Definition sized_sample : ty := TStruct [TOption (TInt U16); TSizedStr 3; sample_enum; TArray (TInt Isize) 2; TBound (TNonZero U32)].
Definition sized_value : val :=
  VTuple [VSome (VInt 513); VStr [x68; xc3; xa9]; VEnum 1 [VBool true; VInt (-2)]; VSeq [VInt (-1); VInt 32767]; VExcluded (VInt 7)].
