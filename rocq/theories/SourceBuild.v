(* Generated by tools/cfg2v.py from oct/src and oct/Cargo.toml: what each file imports, defines and names, under which `cfg`. Do not edit. *)
From Coq Require Import String List.
From Verif Require Import SpecBuild.
Import ListNotations.
Local Open Scope string_scope.
Local Open Scope list_scope.

(* oct/src/lib.rs *)
Definition file_lib : file := File []
  [Item 364 [] "use_mod";
    Use 370 [] ["use_mod"] "use_mod" true;
    Child 372 [] "primitive_discriminant";
    Glob 372 [] ["primitive_discriminant"];
    Child 373 [] "sized_iter";
    Glob 373 [] ["sized_iter"];
    Child 374 [] "sized_slice";
    Glob 374 [] ["sized_slice"];
    Child 375 [] "sized_str";
    Glob 375 [] ["sized_str"];
    Child 378 [On "feature" "alloc"] "slot";
    Glob 378 [On "feature" "alloc"] ["slot"];
    Child 380 [] "decode";
    Child 381 [] "encode";
    Child 382 [] "error"]
  []
  [Mention 372 [] ["use_mod"];
    Mention 378 [On "feature" "alloc"] ["use_mod"]].

(* oct/src/primitive_discriminant/mod.rs *)
Definition file_primitive_discriminant : file := File ["primitive_discriminant"]
  [Child 22 [] "sealed";
    Use 35 [] ["sealed"; "PrimitiveDiscriminant"] "SealedPrimitiveDiscriminant" true;
    Item 45 [] "PrimitiveDiscriminant";
    Item 47 [] "impl_primitive_discriminant"]
  []
  [Mention 45 [] ["Copy"];
    Mention 45 [] ["SealedPrimitiveDiscriminant"];
    Mention 45 [] ["Sized"];
    Mention 61 [] ["impl_primitive_discriminant"];
    Mention 61 [] ["oct"; "SealedPrimitiveDiscriminant"];
    Mention 61 [] ["oct"; "PrimitiveDiscriminant"]].

(* oct/src/primitive_discriminant/mod.rs *)
Definition file_primitive_discriminant_sealed : file := File ["primitive_discriminant"; "sealed"]
  [Item 26 [] "PrimitiveDiscriminant"]
  []
  [].

(* oct/src/sized_iter/mod.rs *)
Definition file_sized_iter : file := File ["sized_iter"]
  [Use 25 [] ["core"; "iter"; "DoubleEndedIterator"] "DoubleEndedIterator" false;
    Use 25 [] ["core"; "iter"; "ExactSizeIterator"] "ExactSizeIterator" false;
    Use 25 [] ["core"; "iter"; "FusedIterator"] "FusedIterator" false;
    Use 26 [] ["core"; "mem"; "MaybeUninit"] "MaybeUninit" false;
    Use 27 [] ["core"; "slice"] "slice" false;
    Item 31 [] "SizedIter"]
  []
  [Mention 32 [] ["MaybeUninit"];
    Mention 38 [] ["SizedIter"];
    Mention 56 [] ["slice"; "from_raw_parts"];
    Mention 69 [] ["slice"; "from_raw_parts_mut"];
    Mention 74 [] ["AsMut"];
    Mention 81 [] ["AsRef"];
    Mention 88 [] ["Clone"];
    Mention 101 [] ["Clone"; "clone"];
    Mention 111 [] ["DoubleEndedIterator"];
    Mention 113 [] ["Option"];
    Own 113 [] "SizedIter" "Item";
    Mention 114 [] ["None"];
    Mention 122 [] ["Some"];
    Mention 126 [] ["ExactSizeIterator"];
    Mention 128 [] ["FusedIterator"];
    Mention 130 [] ["Iterator"]].

(* oct/src/sized_slice/mod.rs *)
Definition file_sized_slice : file := File ["sized_slice"]
  [Use 25 [] ["crate"; "error"; "LengthError"] "LengthError" false;
    Use 27 [] ["core"; "fmt"] "fmt" false;
    Use 27 [] ["core"; "fmt"; "Debug"] "Debug" false;
    Use 27 [] ["core"; "fmt"; "Formatter"] "Formatter" false;
    Use 28 [] ["core"; "hash"; "Hash"] "Hash" false;
    Use 28 [] ["core"; "hash"; "Hasher"] "Hasher" false;
    Use 29 [] ["core"; "mem"; "MaybeUninit"] "MaybeUninit" false;
    Use 30 [] ["core"; "ops"; "Index"] "Index" false;
    Use 30 [] ["core"; "ops"; "IndexMut"] "IndexMut" false;
    Use 31 [] ["core"; "ptr"; "copy_nonoverlapping"] "copy_nonoverlapping" false;
    Use 31 [] ["core"; "ptr"; "null"] "null" false;
    Use 31 [] ["core"; "ptr"; "null_mut"] "null_mut" false;
    Use 32 [] ["core"; "slice"; "SliceIndex"] "SliceIndex" false;
    Child 35 [] "code";
    Child 38 [] "conv";
    Child 41 [] "cmp";
    Child 44 [] "iter";
    Item 73 [] "SizedSlice"]
  []
  [Mention 74 [] ["MaybeUninit"];
    Mention 78 [] ["SizedSlice"];
    Mention 83 [] ["Copy"];
    Mention 91 [] ["copy_nonoverlapping"];
    Mention 100 [] ["null"];
    Mention 120 [] ["SizedSlice"; "from_raw_parts"];
    Mention 126 [] ["null_mut"];
    Mention 201 [] ["Clone"];
    Mention 204 [] ["Result"];
    Mention 204 [] ["LengthError"];
    Mention 208 [] ["Err"];
    Mention 214 [] ["Ok"];
    Mention 222 [] ["MaybeUninit"; "uninit"];
    Mention 234 [] ["Debug"];
    Mention 236 [] ["Formatter"];
    Mention 236 [] ["fmt"; "Result"];
    Mention 237 [] ["Debug"; "fmt"];
    Mention 241 [] ["Default"];
    Own 249 [] "SizedSlice" "from_raw_parts";
    Mention 254 [] ["Hash"];
    Mention 256 [] ["Hasher"];
    Mention 263 [] ["SliceIndex"];
    Mention 263 [] ["Index"];
    Own 267 [] "SizedSlice" "Output";
    Mention 272 [] ["IndexMut"]].

(* oct/src/sized_slice/code.rs *)
Definition file_sized_slice_code : file := File ["sized_slice"; "code"]
  [Use 22 [] ["crate"; "SizedSlice"] "SizedSlice" false;
    Use 23 [] ["crate"; "decode"; "Decode"] "Decode" false;
    Use 23 [] ["crate"; "decode"; "DecodeBorrowed"] "DecodeBorrowed" false;
    Use 23 [] ["crate"; "decode"; "Input"] "Input" false;
    Use 24 [] ["crate"; "encode"; "Encode"] "Encode" false;
    Use 24 [] ["crate"; "encode"; "Output"] "Output" false;
    Use 24 [] ["crate"; "encode"; "SizedEncode"] "SizedEncode" false;
    Use 25 [] ["crate"; "error"; "CollectionDecodeError"] "CollectionDecodeError" false;
    Use 25 [] ["crate"; "error"; "ItemDecodeError"] "ItemDecodeError" false;
    Use 25 [] ["crate"; "error"; "LengthError"] "LengthError" false;
    Use 27 [] ["core"; "mem"; "MaybeUninit"] "MaybeUninit" false]
  []
  [Mention 29 [] ["Decode"];
    Mention 29 [] ["SizedSlice"];
    Mention 30 [] ["CollectionDecodeError"];
    Mention 30 [] ["LengthError"];
    Mention 30 [] ["ItemDecodeError"];
    Mention 33 [] ["Input"];
    Mention 33 [] ["Result"];
    Own 33 [] "SizedSlice" "Error";
    Mention 34 [] ["Decode"; "decode"];
    Mention 35 [] ["Err"];
    Mention 35 [] ["CollectionDecodeError"; "BadLength"];
    Mention 37 [] ["MaybeUninit"];
    Mention 41 [] ["CollectionDecodeError"; "BadItem"];
    Mention 46 [] ["Ok"];
    Mention 50 [] ["DecodeBorrowed"];
    Mention 52 [] ["Encode"];
    Mention 56 [] ["Output"];
    Mention 61 [] ["SizedEncode"]].

(* oct/src/sized_slice/conv.rs *)
Definition file_sized_slice_conv : file := File ["sized_slice"; "conv"]
  [Use 22 [] ["crate"; "SizedSlice"] "SizedSlice" false;
    Use 23 [] ["crate"; "error"; "LengthError"] "LengthError" false;
    Use 25 [] ["core"; "borrow"; "Borrow"] "Borrow" false;
    Use 25 [] ["core"; "borrow"; "BorrowMut"] "BorrowMut" false;
    Use 26 [] ["core"; "mem"; "MaybeUninit"] "MaybeUninit" false;
    Use 27 [] ["core"; "ops"; "Deref"] "Deref" false;
    Use 27 [] ["core"; "ops"; "DerefMut"] "DerefMut" false;
    Use 28 [] ["core"; "ptr"; "copy_nonoverlapping"] "copy_nonoverlapping" false;
    Use 29 [] ["core"; "slice"] "slice" false;
    Use 32 [On "feature" "alloc"] ["alloc"; "alloc"; "alloc"] "alloc" false;
    Use 32 [On "feature" "alloc"] ["alloc"; "alloc"; "Layout"] "Layout" false;
    Use 35 [On "feature" "alloc"] ["alloc"; "boxed"; "Box"] "Box" false;
    Use 38 [On "feature" "alloc"] ["alloc"; "vec"; "Vec"] "Vec" false]
  []
  [Mention 40 [] ["SizedSlice"];
    Mention 53 [] ["MaybeUninit"];
    Mention 88 [] ["slice"; "from_raw_parts"];
    Mention 100 [] ["slice"; "from_raw_parts_mut"];
    Mention 119 [On "feature" "alloc"] ["Box"];
    Mention 123 [On "feature" "alloc"] ["Layout"; "array"];
    Mention 124 [On "feature" "alloc"] ["alloc"];
    Mention 128 [On "feature" "alloc"] ["copy_nonoverlapping"];
    Mention 130 [On "feature" "alloc"] ["core"; "ptr"; "slice_from_raw_parts_mut"];
    Mention 131 [On "feature" "alloc"] ["Box"; "from_raw"];
    Mention 131 [On "feature" "alloc"] ["slice"];
    Mention 145 [On "feature" "alloc"] ["Vec"];
    Mention 150 [] ["AsMut"];
    Mention 157 [] ["AsRef"];
    Mention 164 [] ["Borrow"];
    Mention 171 [] ["BorrowMut"];
    Mention 178 [] ["Deref"];
    Own 182 [] "SizedSlice" "Target";
    Mention 187 [] ["DerefMut"];
    Mention 194 [] ["From"];
    Mention 205 [] ["Clone"];
    Mention 205 [] ["TryFrom"];
    Mention 206 [] ["LengthError"];
    Mention 209 [] ["Result"];
    Own 209 [] "SizedSlice" "Error";
    Own 210 [] "SizedSlice" "new";
    Mention 216 [On "feature" "alloc"] ["From"];
    Mention 216 [On "feature" "alloc"] ["SizedSlice"]].

(* oct/src/sized_slice/cmp.rs *)
Definition file_sized_slice_cmp : file := File ["sized_slice"; "cmp"]
  [Use 22 [] ["crate"; "SizedSlice"] "SizedSlice" false;
    Use 24 [] ["core"; "cmp"; "Ordering"] "Ordering" false;
    Use 27 [On "feature" "alloc"] ["alloc"; "vec"; "Vec"] "Vec" false]
  []
  [Mention 29 [] ["Eq"];
    Mention 29 [] ["SizedSlice"];
    Mention 31 [] ["Ord"];
    Mention 33 [] ["Ordering"];
    Mention 38 [] ["PartialEq"];
    Mention 61 [On "feature" "alloc"] ["PartialEq"];
    Mention 61 [On "feature" "alloc"] ["Vec"];
    Mention 61 [On "feature" "alloc"] ["SizedSlice"];
    Mention 68 [] ["PartialOrd"];
    Mention 70 [] ["Option"];
    Mention 91 [On "feature" "alloc"] ["PartialOrd"];
    Mention 93 [On "feature" "alloc"] ["Option"];
    Mention 93 [On "feature" "alloc"] ["Ordering"]].

(* oct/src/sized_slice/iter.rs *)
Definition file_sized_slice_iter : file := File ["sized_slice"; "iter"]
  [Use 22 [] ["crate"; "SizedIter"] "SizedIter" false;
    Use 22 [] ["crate"; "SizedSlice"] "SizedSlice" false;
    Use 24 [] ["core"; "mem"; "MaybeUninit"] "MaybeUninit" false;
    Use 25 [] ["core"; "slice"] "slice" false]
  []
  [Mention 27 [] ["FromIterator"];
    Mention 27 [] ["SizedSlice"];
    Mention 29 [] ["IntoIterator"];
    Mention 32 [] ["MaybeUninit"];
    Mention 36 [] ["Some"];
    Mention 49 [] ["SizedIter"];
    Own 52 [] "SizedSlice" "IntoIter";
    Mention 55 [] ["SizedIter"; "new"];
    Mention 62 [] ["slice"; "Iter"];
    Mention 73 [] ["slice"; "IterMut"]].

(* oct/src/sized_str/mod.rs *)
Definition file_sized_str : file := File ["sized_str"]
  [Use 25 [] ["crate"; "SizedSlice"] "SizedSlice" false;
    Use 26 [] ["crate"; "error"; "LengthError"] "LengthError" false;
    Use 26 [] ["crate"; "error"; "StringError"] "StringError" false;
    Use 28 [] ["core"; "fmt"] "fmt" false;
    Use 28 [] ["core"; "fmt"; "Debug"] "Debug" false;
    Use 28 [] ["core"; "fmt"; "Display"] "Display" false;
    Use 28 [] ["core"; "fmt"; "Formatter"] "Formatter" false;
    Use 29 [] ["core"; "hash"; "Hash"] "Hash" false;
    Use 29 [] ["core"; "hash"; "Hasher"] "Hasher" false;
    Use 30 [] ["core"; "ops"; "Index"] "Index" false;
    Use 30 [] ["core"; "ops"; "IndexMut"] "IndexMut" false;
    Use 31 [] ["core"; "slice"; "SliceIndex"] "SliceIndex" false;
    Use 32 [] ["core"; "str"; "Chars"] "Chars" false;
    Use 32 [] ["core"; "str"; "CharIndices"] "CharIndices" false;
    Child 35 [] "cmp";
    Child 38 [] "code";
    Child 41 [] "conv";
    Item 75 [] "SizedStr"]
  []
  [Mention 75 [] ["SizedSlice"];
    Mention 77 [] ["SizedStr"];
    Mention 86 [] ["Result"];
    Mention 86 [] ["StringError"];
    Mention 87 [] ["Err"];
    Mention 87 [] ["StringError"; "SmallBuffer"];
    Mention 87 [] ["LengthError"];
    Own 89 [] "SizedStr" "from_utf8_unchecked";
    Mention 90 [] ["Ok"];
    Mention 127 [] ["Chars"];
    Mention 133 [] ["CharIndices"];
    Mention 138 [] ["Debug"];
    Mention 140 [] ["Formatter"];
    Mention 140 [] ["fmt"; "Result"];
    Mention 141 [] ["Debug"; "fmt"];
    Mention 145 [] ["Display"];
    Mention 148 [] ["Display"; "fmt"];
    Mention 152 [] ["Eq"];
    Mention 154 [] ["FromIterator"];
    Mention 156 [] ["IntoIterator"];
    Own 176 [] "SizedStr" "from_raw_parts";
    Mention 180 [] ["Hash"];
    Mention 182 [] ["Hasher"];
    Mention 187 [] ["SliceIndex"];
    Mention 187 [] ["Index"];
    Own 191 [] "SizedStr" "Output";
    Mention 196 [] ["IndexMut"]].

(* oct/src/sized_str/cmp.rs *)
Definition file_sized_str_cmp : file := File ["sized_str"; "cmp"]
  [Use 22 [] ["crate"; "SizedStr"] "SizedStr" false;
    Use 24 [] ["core"; "cmp"; "Ordering"] "Ordering" false;
    Use 27 [On "feature" "alloc"] ["alloc"; "string"; "String"] "String" false]
  []
  [Mention 29 [] ["Ord"];
    Mention 29 [] ["SizedStr"];
    Mention 31 [] ["Ordering"];
    Mention 36 [] ["PartialEq"];
    Mention 52 [On "feature" "alloc"] ["PartialEq"];
    Mention 52 [On "feature" "alloc"] ["String"];
    Mention 52 [On "feature" "alloc"] ["SizedStr"];
    Mention 59 [] ["PartialOrd"];
    Mention 61 [] ["Option"];
    Mention 75 [On "feature" "alloc"] ["PartialOrd"];
    Mention 77 [On "feature" "alloc"] ["Option"];
    Mention 77 [On "feature" "alloc"] ["Ordering"]].

(* oct/src/sized_str/code.rs *)
Definition file_sized_str_code : file := File ["sized_str"; "code"]
  [Use 22 [] ["crate"; "SizedStr"] "SizedStr" false;
    Use 23 [] ["crate"; "decode"; "Decode"] "Decode" false;
    Use 23 [] ["crate"; "decode"; "DecodeBorrowed"] "DecodeBorrowed" false;
    Use 23 [] ["crate"; "decode"; "Input"] "Input" false;
    Use 24 [] ["crate"; "encode"; "Encode"] "Encode" false;
    Use 24 [] ["crate"; "encode"; "Output"] "Output" false;
    Use 24 [] ["crate"; "encode"; "SizedEncode"] "SizedEncode" false;
    Use 25 [] ["crate"; "error"; "CollectionDecodeError"] "CollectionDecodeError" false;
    Use 25 [] ["crate"; "error"; "LengthError"] "LengthError" false;
    Use 25 [] ["crate"; "error"; "StringError"] "StringError" false;
    Use 25 [] ["crate"; "error"; "Utf8Error"] "Utf8Error" false]
  []
  [Mention 27 [] ["Decode"];
    Mention 27 [] ["SizedStr"];
    Mention 28 [] ["CollectionDecodeError"];
    Mention 28 [] ["LengthError"];
    Mention 28 [] ["Utf8Error"];
    Mention 31 [] ["Input"];
    Mention 31 [] ["Result"];
    Own 31 [] "SizedStr" "Error";
    Mention 32 [] ["Decode"; "decode"];
    Own 36 [] "SizedStr" "from_utf8";
    Mention 38 [] ["StringError"; "BadUtf8"];
    Mention 38 [] ["CollectionDecodeError"; "BadItem"];
    Mention 40 [] ["StringError"; "SmallBuffer"];
    Mention 40 [] ["CollectionDecodeError"; "BadLength"];
    Mention 47 [] ["DecodeBorrowed"];
    Mention 49 [] ["Encode"];
    Mention 53 [] ["Output"];
    Mention 58 [] ["SizedEncode"];
    Mention 60 [] ["usize"; "MAX_ENCODED_SIZE"];
    Mention 61 [] ["u8"; "MAX_ENCODED_SIZE"]].

(* oct/src/sized_str/conv.rs *)
Definition file_sized_str_conv : file := File ["sized_str"; "conv"]
  [Use 22 [] ["crate"; "SizedSlice"] "SizedSlice" false;
    Use 22 [] ["crate"; "SizedStr"] "SizedStr" false;
    Use 23 [] ["crate"; "error"; "LengthError"] "LengthError" false;
    Use 23 [] ["crate"; "error"; "StringError"] "StringError" false;
    Use 23 [] ["crate"; "error"; "Utf8Error"] "Utf8Error" false;
    Use 25 [] ["core"; "borrow"; "Borrow"] "Borrow" false;
    Use 25 [] ["core"; "borrow"; "BorrowMut"] "BorrowMut" false;
    Use 26 [] ["core"; "mem"; "ManuallyDrop"] "ManuallyDrop" false;
    Use 26 [] ["core"; "mem"; "MaybeUninit"] "MaybeUninit" false;
    Use 27 [] ["core"; "ops"; "Deref"] "Deref" false;
    Use 27 [] ["core"; "ops"; "DerefMut"] "DerefMut" false;
    Use 28 [] ["core"; "ptr"; "copy_nonoverlapping"] "copy_nonoverlapping" false;
    Use 29 [] ["core"; "slice"] "slice" false;
    Use 30 [] ["core"; "str"] "str" false;
    Use 30 [] ["core"; "str"; "FromStr"] "FromStr" false;
    Use 33 [On "feature" "alloc"] ["alloc"; "boxed"; "Box"] "Box" false;
    Use 36 [On "feature" "alloc"] ["alloc"; "string"; "String"] "String" false;
    Use 39 [On "feature" "std"] ["std"; "ffi"; "OsStr"] "OsStr" false;
    Use 42 [On "feature" "std"] ["std"; "net"; "ToSocketAddrs"] "ToSocketAddrs" false;
    Use 45 [On "feature" "std"] ["std"; "path"; "Path"] "Path" false]
  []
  [Mention 47 [] ["SizedStr"];
    Mention 57 [] ["Result"];
    Mention 57 [] ["StringError"];
    Mention 58 [] ["Err"];
    Mention 58 [] ["StringError"; "SmallBuffer"];
    Mention 58 [] ["LengthError"];
    Mention 60 [] ["str"; "from_utf8"];
    Mention 61 [] ["Ok"];
    Mention 67 [] ["StringError"; "BadUtf8"];
    Mention 67 [] ["Utf8Error"];
    Own 73 [] "SizedStr" "from_utf8_unchecked";
    Mention 89 [] ["copy_nonoverlapping"];
    Own 94 [] "SizedStr" "from_raw_parts";
    Mention 112 [] ["MaybeUninit"];
    Mention 114 [] ["SizedSlice"; "from_raw_parts"];
    Mention 147 [] ["slice"; "from_raw_parts"];
    Mention 155 [] ["str"];
    Mention 158 [] ["core"; "str"; "from_utf8_unchecked"];
    Mention 173 [] ["slice"; "from_raw_parts_mut"];
    Mention 174 [] ["core"; "str"; "from_utf8_unchecked_mut"];
    Mention 190 [] ["ManuallyDrop"; "new"];
    Mention 199 [] ["SizedSlice"];
    Mention 209 [On "feature" "alloc"] ["Box"];
    Mention 209 [On "feature" "alloc"] ["str"];
    Mention 211 [On "feature" "alloc"] ["alloc"; "str"; "from_boxed_utf8_unchecked"];
    Mention 221 [On "feature" "alloc"] ["String"];
    Mention 226 [] ["AsMut"];
    Mention 235 [On "feature" "std"] ["AsRef"];
    Mention 235 [On "feature" "std"] ["OsStr"];
    Mention 235 [On "feature" "std"] ["SizedStr"];
    Mention 244 [On "feature" "std"] ["Path"];
    Mention 251 [] ["AsRef"];
    Mention 265 [] ["Borrow"];
    Mention 272 [] ["BorrowMut"];
    Mention 279 [] ["Deref"];
    Own 283 [] "SizedStr" "Target";
    Mention 288 [] ["DerefMut"];
    Mention 295 [] ["FromStr"];
    Own 299 [] "SizedStr" "Err";
    Mention 309 [On "feature" "std"] ["ToSocketAddrs"];
    Mention 310 [On "feature" "std"] ["str"];
    Mention 313 [On "feature" "std"] ["std"; "io"; "Result"];
    Own 313 [On "feature" "std"] "SizedStr" "Iter";
    Mention 318 [] ["TryFrom"];
    Own 322 [] "SizedStr" "Error";
    Own 335 [] "SizedStr" "from_str";
    Mention 341 [On "feature" "alloc"] ["TryFrom"];
    Mention 341 [On "feature" "alloc"] ["SizedStr"];
    Mention 342 [On "feature" "alloc"] ["FromStr"];
    Mention 345 [On "feature" "alloc"] ["Result"];
    Own 345 [On "feature" "alloc"] "SizedStr" "Error";
    Own 346 [On "feature" "alloc"] "SizedStr" "from_str";
    Mention 353 [On "feature" "alloc"] ["From"]].

(* oct/src/slot/mod.rs *)
Definition file_slot : file := File ["slot"]
  [Use 25 [] ["crate"; "decode"; "Decode"] "Decode" false;
    Use 25 [] ["crate"; "decode"; "Input"] "Input" false;
    Use 26 [] ["crate"; "encode"; "Encode"] "Encode" false;
    Use 26 [] ["crate"; "encode"; "Output"] "Output" false;
    Use 26 [] ["crate"; "encode"; "SizedEncode"] "SizedEncode" false;
    Use 28 [] ["alloc"; "boxed"; "Box"] "Box" false;
    Use 29 [] ["alloc"; "vec"] "vec" false;
    Use 30 [] ["core"; "borrow"; "Borrow"] "Borrow" false;
    Use 30 [] ["core"; "borrow"; "BorrowMut"] "BorrowMut" false;
    Use 31 [] ["core"; "fmt"] "fmt" false;
    Use 31 [] ["core"; "fmt"; "Debug"] "Debug" false;
    Use 31 [] ["core"; "fmt"; "Formatter"] "Formatter" false;
    Use 32 [] ["core"; "marker"; "PhantomData"] "PhantomData" false;
    Use 33 [] ["core"; "ops"; "Deref"] "Deref" false;
    Use 33 [] ["core"; "ops"; "DerefMut"] "DerefMut" false;
    Use 33 [] ["core"; "ops"; "Index"] "Index" false;
    Use 33 [] ["core"; "ops"; "IndexMut"] "IndexMut" false;
    Use 34 [] ["core"; "ptr"] "ptr" false;
    Use 34 [] ["core"; "ptr"; "copy_nonoverlapping"] "copy_nonoverlapping" false;
    Use 35 [] ["core"; "slice"] "slice" false;
    Use 35 [] ["core"; "slice"; "SliceIndex"] "SliceIndex" false;
    Item 69 [] "Slot"]
  []
  [Mention 70 [] ["Box"];
    Mention 73 [] ["PhantomData"];
    Mention 77 [] ["Slot"];
    Mention 86 [] ["vec"];
    Mention 106 [] ["ptr"; "slice_from_raw_parts_mut"];
    Mention 106 [] ["ptr"];
    Mention 108 [] ["Box"; "from_raw"];
    Mention 145 [] ["slice"; "from_raw_parts"];
    Mention 157 [] ["slice"; "from_raw_parts_mut"];
    Mention 178 [] ["copy_nonoverlapping"];
    Mention 261 [] ["Encode"];
    Mention 270 [] ["Borrow"];
    Mention 270 [] ["Result"];
    Mention 271 [] ["Output"; "new"];
    Mention 278 [] ["Ok"];
    Mention 283 [] ["Decode"];
    Mention 299 [] ["Input"; "new"];
    Mention 301 [] ["Decode"; "decode"];
    Mention 307 [] ["SizedEncode"];
    Own 315 [] "Slot" "with_capacity";
    Mention 321 [] ["AsMut"];
    Mention 330 [] ["AsRef"];
    Mention 348 [] ["BorrowMut"];
    Mention 356 [] ["Debug"];
    Mention 358 [] ["Formatter"];
    Mention 358 [] ["fmt"; "Result"];
    Mention 362 [] ["Default"];
    Own 365 [] "Slot" "new";
    Mention 370 [] ["Deref"];
    Own 374 [] "Slot" "Target";
    Mention 380 [] ["DerefMut"];
    Mention 388 [] ["SliceIndex"];
    Mention 388 [] ["Index"];
    Own 392 [] "Slot" "Output";
    Mention 398 [] ["IndexMut"];
    Mention 406 [] ["PartialEq"]].

(* oct/src/decode/mod.rs *)
Definition file_decode : file := File ["decode"]
  [Use 24 [] ["crate"; "use_mod"] "use_mod" false;
    Child 26 [] "decode";
    Glob 26 [] ["decode"];
    Child 27 [] "decode_borrowed";
    Glob 27 [] ["decode_borrowed"];
    Child 28 [] "input";
    Glob 28 [] ["input"];
    Use 36 [On "feature" "proc-macro"] ["oct_macros"; "Decode"] "Decode" true]
  []
  [Mention 26 [] ["use_mod"]].

(* oct/src/decode/decode/mod.rs *)
Definition file_decode_decode : file := File ["decode"; "decode"]
  [Use 25 [] ["crate"; "decode"; "DecodeBorrowed"] "DecodeBorrowed" false;
    Use 25 [] ["crate"; "decode"; "Input"] "Input" false;
    Use 26 [] ["crate"; "error"; "CStringDecodeError"] "CStringDecodeError" false;
    Use 26 [] ["crate"; "error"; "CharDecodeError"] "CharDecodeError" false;
    Use 26 [] ["crate"; "error"; "CollectionDecodeError"] "CollectionDecodeError" false;
    Use 26 [] ["crate"; "error"; "EnumDecodeError"] "EnumDecodeError" false;
    Use 26 [] ["crate"; "error"; "ItemDecodeError"] "ItemDecodeError" false;
    Use 26 [] ["crate"; "error"; "SystemTimeDecodeError"] "SystemTimeDecodeError" false;
    Use 26 [] ["crate"; "error"; "Utf8Error"] "Utf8Error" false;
    Use 36 [] ["core"; "cell"; "Cell"] "Cell" false;
    Use 36 [] ["core"; "cell"; "RefCell"] "RefCell" false;
    Use 37 [] ["core"; "convert"; "Infallible"] "Infallible" false;
    Use 38 [] ["core"; "hash"; "Hash"] "Hash" false;
    Use 39 [] ["core"; "marker"; "PhantomData"] "PhantomData" false;
    Use 39 [] ["core"; "marker"; "PhantomPinned"] "PhantomPinned" false;
    Use 40 [] ["core"; "mem"; "MaybeUninit"] "MaybeUninit" false;
    Use 41 [] ["core"; "net"; "IpAddr"] "IpAddr" false;
    Use 41 [] ["core"; "net"; "Ipv4Addr"] "Ipv4Addr" false;
    Use 41 [] ["core"; "net"; "Ipv6Addr"] "Ipv6Addr" false;
    Use 41 [] ["core"; "net"; "SocketAddr"] "SocketAddr" false;
    Use 41 [] ["core"; "net"; "SocketAddrV4"] "SocketAddrV4" false;
    Use 41 [] ["core"; "net"; "SocketAddrV6"] "SocketAddrV6" false;
    Use 49 [] ["core"; "num"; "Saturating"] "Saturating" false;
    Use 49 [] ["core"; "num"; "Wrapping"] "Wrapping" false;
    Use 50 [] ["core"; "ops"; "Bound"] "Bound" false;
    Use 50 [] ["core"; "ops"; "Range"] "Range" false;
    Use 50 [] ["core"; "ops"; "RangeFrom"] "RangeFrom" false;
    Use 50 [] ["core"; "ops"; "RangeFull"] "RangeFull" false;
    Use 50 [] ["core"; "ops"; "RangeInclusive"] "RangeInclusive" false;
    Use 50 [] ["core"; "ops"; "RangeTo"] "RangeTo" false;
    Use 50 [] ["core"; "ops"; "RangeToInclusive"] "RangeToInclusive" false;
    Use 59 [] ["core"; "ptr"; "copy_nonoverlapping"] "copy_nonoverlapping" false;
    Use 60 [] ["core"; "str"] "str" false;
    Use 61 [] ["core"; "time"; "Duration"] "Duration" false;
    Use 64 [On "feature" "alloc"] ["alloc"; "borrow"; "Cow"] "Cow" false;
    Use 64 [On "feature" "alloc"] ["alloc"; "borrow"; "ToOwned"] "ToOwned" false;
    Use 67 [On "feature" "alloc"] ["alloc"; "boxed"; "Box"] "Box" false;
    Use 70 [On "feature" "alloc"] ["alloc"; "collections"; "LinkedList"] "LinkedList" false;
    Use 73 [On "feature" "alloc"] ["alloc"; "ffi"; "CString"] "CString" false;
    Use 76 [On "feature" "alloc"] ["alloc"; "string"; "String"] "String" false;
    Use 79 [On "feature" "alloc"] ["alloc"; "vec"; "Vec"] "Vec" false;
    Use 82 [On "feature" "alloc"] ["alloc"; "rc"; "Rc"] "Rc" false;
    Use 85 [All [On "feature" "alloc"; On "target_has_atomic" "ptr"]] ["alloc"; "sync"; "Arc"] "Arc" false;
    Use 88 [On "feature" "std"] ["std"; "collections"; "HashMap"] "HashMap" false;
    Use 88 [On "feature" "std"] ["std"; "collections"; "HashSet"] "HashSet" false;
    Use 91 [On "feature" "std"] ["std"; "hash"; "BuildHasher"] "BuildHasher" false;
    Use 94 [On "feature" "std"] ["std"; "sync"; "Mutex"] "Mutex" false;
    Use 94 [On "feature" "std"] ["std"; "sync"; "RwLock"] "RwLock" false;
    Use 97 [On "feature" "std"] ["std"; "time"; "SystemTime"] "SystemTime" false;
    Use 97 [On "feature" "std"] ["std"; "time"; "UNIX_EPOCH"] "UNIX_EPOCH" false;
    Item 102 [] "Decode";
    Item 819 [] "impl_numeric";
    Item 836 [] "impl_tuple";
    Item 859 [] "impl_non_zero";
    Item 883 [] "impl_atomic"]
  []
  [Mention 102 [] ["Sized"];
    Mention 111 [] ["Input"];
    Mention 111 [] ["Result"];
    Own 111 [] "Decode" "Error";
    Mention 116 [] ["Decode"];
    Own 120 [] "T" "Error";
    Mention 121 [] ["Decode"; "decode"];
    Mention 122 [] ["Result"; "Ok"];
    Mention 127 [] ["CollectionDecodeError"];
    Mention 127 [] ["Infallible"];
    Mention 127 [] ["ItemDecodeError"];
    Mention 133 [] ["MaybeUninit"];
    Mention 137 [] ["CollectionDecodeError"; "BadItem"];
    Mention 156 [All [On "feature" "alloc"; On "target_has_atomic" "ptr"]] ["Decode"];
    Mention 156 [All [On "feature" "alloc"; On "target_has_atomic" "ptr"]] ["Arc"];
    Mention 160 [All [On "feature" "alloc"; On "target_has_atomic" "ptr"]] ["Input"];
    Mention 160 [All [On "feature" "alloc"; On "target_has_atomic" "ptr"]] ["Result"];
    Own 160 [All [On "feature" "alloc"; On "target_has_atomic" "ptr"]] "Arc" "Error";
    Mention 161 [All [On "feature" "alloc"; On "target_has_atomic" "ptr"]] ["Decode"; "decode"];
    Own 163 [All [On "feature" "alloc"; On "target_has_atomic" "ptr"]] "Arc" "new";
    Mention 164 [All [On "feature" "alloc"; On "target_has_atomic" "ptr"]] ["Result"; "Ok"];
    Own 175 [] "bool" "Error";
    Mention 176 [] ["Ok"];
    Mention 176 [] ["u8"; "decode"];
    Mention 183 [] ["Bound"];
    Mention 184 [] ["EnumDecodeError"];
    Own 187 [] "Bound" "Error";
    Mention 193 [] ["EnumDecodeError"; "BadField"];
    Own 195 [] "Bound" "Included";
    Own 202 [] "Bound" "Excluded";
    Own 205 [] "Bound" "Unbounded";
    Mention 207 [] ["Err"];
    Mention 207 [] ["EnumDecodeError"; "UnassignedDiscriminant"];
    Mention 216 [On "feature" "alloc"] ["Decode"];
    Mention 216 [On "feature" "alloc"] ["Box"];
    Mention 220 [On "feature" "alloc"] ["Input"];
    Mention 220 [On "feature" "alloc"] ["Result"];
    Own 220 [On "feature" "alloc"] "Box" "Error";
    Mention 221 [On "feature" "alloc"] ["Decode"; "decode"];
    Own 223 [On "feature" "alloc"] "Box" "new";
    Mention 224 [On "feature" "alloc"] ["Result"; "Ok"];
    Mention 228 [] ["Cell"];
    Own 232 [] "Cell" "Error";
    Own 235 [] "Cell" "new";
    Mention 241 [] ["CharDecodeError"];
    Own 244 [] "char" "Error";
    Mention 245 [] ["u32"; "decode"];
    Own 249 [] "char" "from_u32_unchecked";
    Mention 260 [On "feature" "alloc"] ["Cow"];
    Mention 262 [On "feature" "alloc"] ["DecodeBorrowed"];
    Mention 263 [On "feature" "alloc"] ["ToOwned"];
    Own 268 [On "feature" "alloc"] "Cow" "Error";
    Own 271 [On "feature" "alloc"] "Cow" "Owned";
    Mention 278 [On "feature" "alloc"] ["CString"];
    Mention 279 [On "feature" "alloc"] ["CStringDecodeError"];
    Own 282 [On "feature" "alloc"] "CString" "Error";
    Mention 283 [On "feature" "alloc"] ["Ok"];
    Mention 288 [On "feature" "alloc"] ["Err"];
    Mention 291 [On "feature" "alloc"] ["Vec"; "with_capacity"];
    Mention 297 [On "feature" "alloc"] ["copy_nonoverlapping"];
    Own 302 [On "feature" "alloc"] "CString" "from_vec_unchecked";
    Mention 307 [] ["Duration"];
    Own 311 [] "Duration" "Error";
    Own 315 [] "Duration" "new";
    Mention 322 [On "feature" "std"] ["Decode"];
    Mention 322 [On "feature" "std"] ["HashMap"];
    Mention 324 [On "feature" "std"] ["Eq"];
    Mention 324 [On "feature" "std"] ["Hash"];
    Mention 326 [On "feature" "std"] ["BuildHasher"];
    Mention 326 [On "feature" "std"] ["Default"];
    Mention 328 [On "feature" "std"] ["CollectionDecodeError"];
    Mention 328 [On "feature" "std"] ["Infallible"];
    Mention 328 [On "feature" "std"] ["ItemDecodeError"];
    Mention 331 [On "feature" "std"] ["Input"];
    Mention 331 [On "feature" "std"] ["Result"];
    Own 331 [On "feature" "std"] "HashMap" "Error";
    Mention 332 [On "feature" "std"] ["Ok"];
    Mention 332 [On "feature" "std"] ["Decode"; "decode"];
    Own 334 [On "feature" "std"] "HashMap" "with_capacity_and_hasher";
    Mention 334 [On "feature" "std"] ["Default"; "default"];
    Mention 338 [On "feature" "std"] ["CollectionDecodeError"; "BadItem"];
    Mention 346 [On "feature" "std"] ["Result"; "Ok"];
    Mention 352 [On "feature" "std"] ["HashSet"];
    Own 360 [On "feature" "std"] "HashSet" "Error";
    Own 363 [On "feature" "std"] "HashSet" "with_capacity_and_hasher";
    Own 380 [] "Infallible" "Error";
    Mention 385 [] ["IpAddr"];
    Own 389 [] "IpAddr" "Error";
    Mention 391 [] ["EnumDecodeError"; "InvalidDiscriminant"];
    Own 394 [] "IpAddr" "V4";
    Own 395 [] "IpAddr" "V6";
    Mention 404 [] ["Ipv4Addr"];
    Own 408 [] "Ipv4Addr" "Error";
    Own 411 [] "Ipv4Addr" "from_bits";
    Mention 416 [] ["Ipv6Addr"];
    Own 420 [] "Ipv6Addr" "Error";
    Own 423 [] "Ipv6Addr" "from_bits";
    Own 432 [] "isize" "Error";
    Mention 433 [] ["i16"; "decode"];
    Mention 441 [On "feature" "alloc"] ["LinkedList"];
    Mention 442 [On "feature" "alloc"] ["CollectionDecodeError"];
    Mention 442 [On "feature" "alloc"] ["Infallible"];
    Mention 442 [On "feature" "alloc"] ["ItemDecodeError"];
    Own 445 [On "feature" "alloc"] "LinkedList" "Error";
    Mention 446 [On "feature" "alloc"] ["usize"; "decode"];
    Own 448 [On "feature" "alloc"] "LinkedList" "new";
    Mention 452 [On "feature" "alloc"] ["CollectionDecodeError"; "BadItem"];
    Mention 463 [On "feature" "std"] ["Mutex"];
    Own 467 [On "feature" "std"] "Mutex" "Error";
    Own 470 [On "feature" "std"] "Mutex" "new";
    Mention 475 [] ["Option"];
    Own 480 [] "Option" "Error";
    Mention 481 [] ["bool"; "decode"];
    Mention 485 [] ["Some"];
    Mention 487 [] ["None"];
    Mention 494 [] ["PhantomData"];
    Own 498 [] "PhantomData" "Error";
    Mention 503 [] ["PhantomPinned"];
    Own 507 [] "PhantomPinned" "Error";
    Mention 512 [] ["Range"];
    Own 516 [] "Range" "Error";
    Mention 524 [] ["RangeFrom"];
    Own 528 [] "RangeFrom" "Error";
    Mention 535 [] ["RangeFull"];
    Own 539 [] "RangeFull" "Error";
    Mention 544 [] ["RangeInclusive"];
    Own 548 [] "RangeInclusive" "Error";
    Mention 556 [] ["RangeTo"];
    Own 560 [] "RangeTo" "Error";
    Mention 567 [] ["RangeToInclusive"];
    Own 571 [] "RangeToInclusive" "Error";
    Mention 580 [On "feature" "alloc"] ["Rc"];
    Own 584 [On "feature" "alloc"] "Rc" "Error";
    Own 585 [On "feature" "alloc"] "Rc" "new";
    Mention 589 [] ["RefCell"];
    Own 593 [] "RefCell" "Error";
    Own 596 [] "RefCell" "new";
    Own 609 [] "Result" "Error";
    Mention 631 [On "feature" "std"] ["RwLock"];
    Own 635 [On "feature" "std"] "RwLock" "Error";
    Own 638 [On "feature" "std"] "RwLock" "new";
    Mention 643 [] ["Saturating"];
    Own 647 [] "Saturating" "Error";
    Mention 655 [] ["SocketAddr"];
    Own 659 [] "SocketAddr" "Error";
    Own 663 [] "SocketAddr" "V4";
    Own 664 [] "SocketAddr" "V6";
    Mention 671 [] ["SocketAddrV4"];
    Own 675 [] "SocketAddrV4" "Error";
    Own 679 [] "SocketAddrV4" "new";
    Mention 684 [] ["SocketAddrV6"];
    Own 688 [] "SocketAddrV6" "Error";
    Own 694 [] "SocketAddrV6" "new";
    Mention 701 [On "feature" "alloc"] ["String"];
    Mention 702 [On "feature" "alloc"] ["Utf8Error"];
    Own 705 [On "feature" "alloc"] "String" "Error";
    Mention 710 [On "feature" "alloc"] ["str"; "from_utf8"];
    Own 732 [On "feature" "alloc"] "String" "from_utf8_unchecked";
    Mention 739 [On "feature" "std"] ["SystemTime"];
    Mention 740 [On "feature" "std"] ["SystemTimeDecodeError"];
    Own 743 [On "feature" "std"] "SystemTime" "Error";
    Mention 744 [On "feature" "std"] ["i64"; "decode"];
    Mention 749 [On "feature" "std"] ["UNIX_EPOCH"];
    Mention 749 [On "feature" "std"] ["Duration"; "from_secs"];
    Own 773 [] "usize" "Error";
    Mention 774 [] ["u16"; "decode"];
    Mention 781 [On "feature" "alloc"] ["Vec"];
    Own 785 [On "feature" "alloc"] "Vec" "Error";
    Own 788 [On "feature" "alloc"] "Vec" "with_capacity";
    Mention 807 [] ["Wrapping"];
    Own 811 [] "Wrapping" "Error";
    Mention 907 [] ["impl_numeric"];
    Mention 907 [] ["oct"; "decode"; "Decode"];
    Mention 907 [] ["core"; "convert"; "Infallible"];
    Mention 907 [] ["oct"; "decode"; "Input"];
    Mention 907 [] ["core"; "result"; "Result"];
    Own 907 [] "f32" "Error";
    Mention 907 [] ["core"; "default"; "Default"; "default"];
    Mention 907 [] ["oct"; "encode"; "SizedEncode"];
    Own 907 [] "f32" "from_le_bytes";
    Mention 907 [] ["core"; "result"; "Result"; "Ok"];
    Own 908 [] "f64" "Error";
    Own 908 [] "f64" "from_le_bytes";
    Own 909 [] "i128" "Error";
    Own 909 [] "i128" "from_le_bytes";
    Own 910 [] "i16" "Error";
    Own 910 [] "i16" "from_le_bytes";
    Own 911 [] "i32" "Error";
    Own 911 [] "i32" "from_le_bytes";
    Own 912 [] "i64" "Error";
    Own 912 [] "i64" "from_le_bytes";
    Own 913 [] "i8" "Error";
    Own 913 [] "i8" "from_le_bytes";
    Own 914 [] "u128" "Error";
    Own 914 [] "u128" "from_le_bytes";
    Own 915 [] "u16" "Error";
    Own 915 [] "u16" "from_le_bytes";
    Own 916 [] "u32" "Error";
    Own 916 [] "u32" "from_le_bytes";
    Own 917 [] "u64" "Error";
    Own 917 [] "u64" "from_le_bytes";
    Own 918 [] "u8" "Error";
    Own 918 [] "u8" "from_le_bytes";
    Mention 920 [] ["impl_tuple"];
    Own 920 [] "T0" "Error";
    Mention 1030 [] ["impl_non_zero"];
    Mention 1030 [] ["core"; "num"; "NonZero"];
    Mention 1030 [] ["oct"; "error"; "NonZeroDecodeError"];
    Own 1030 [] "NonZero" "Error";
    Mention 1030 [] ["core"; "num"; "NonZero"; "new_unchecked"];
    Mention 1043 [] ["impl_atomic"];
    Mention 1043 [On "target_has_atomic" "8"] ["oct"; "decode"; "Decode"];
    Mention 1043 [On "target_has_atomic" "8"] ["std"; "sync"; "atomic"; "AtomicBool"];
    Mention 1043 [On "target_has_atomic" "8"] ["oct"; "decode"; "Input"];
    Mention 1043 [On "target_has_atomic" "8"] ["core"; "result"; "Result"];
    Own 1043 [On "target_has_atomic" "8"] "AtomicBool" "Error";
    Mention 1043 [On "target_has_atomic" "8"] ["oct"; "decode"; "Decode"; "decode"];
    Own 1043 [On "target_has_atomic" "8"] "AtomicBool" "new";
    Mention 1043 [On "target_has_atomic" "8"] ["core"; "result"; "Result"; "Ok"];
    Mention 1049 [On "target_has_atomic" "16"] ["oct"; "decode"; "Decode"];
    Mention 1049 [On "target_has_atomic" "16"] ["std"; "sync"; "atomic"; "AtomicI16"];
    Mention 1049 [On "target_has_atomic" "16"] ["oct"; "decode"; "Input"];
    Mention 1049 [On "target_has_atomic" "16"] ["core"; "result"; "Result"];
    Own 1049 [On "target_has_atomic" "16"] "AtomicI16" "Error";
    Mention 1049 [On "target_has_atomic" "16"] ["oct"; "decode"; "Decode"; "decode"];
    Own 1049 [On "target_has_atomic" "16"] "AtomicI16" "new";
    Mention 1049 [On "target_has_atomic" "16"] ["core"; "result"; "Result"; "Ok"];
    Mention 1055 [On "target_has_atomic" "32"] ["oct"; "decode"; "Decode"];
    Mention 1055 [On "target_has_atomic" "32"] ["std"; "sync"; "atomic"; "AtomicI32"];
    Mention 1055 [On "target_has_atomic" "32"] ["oct"; "decode"; "Input"];
    Mention 1055 [On "target_has_atomic" "32"] ["core"; "result"; "Result"];
    Own 1055 [On "target_has_atomic" "32"] "AtomicI32" "Error";
    Mention 1055 [On "target_has_atomic" "32"] ["oct"; "decode"; "Decode"; "decode"];
    Own 1055 [On "target_has_atomic" "32"] "AtomicI32" "new";
    Mention 1055 [On "target_has_atomic" "32"] ["core"; "result"; "Result"; "Ok"];
    Mention 1061 [On "target_has_atomic" "64"] ["oct"; "decode"; "Decode"];
    Mention 1061 [On "target_has_atomic" "64"] ["std"; "sync"; "atomic"; "AtomicI64"];
    Mention 1061 [On "target_has_atomic" "64"] ["oct"; "decode"; "Input"];
    Mention 1061 [On "target_has_atomic" "64"] ["core"; "result"; "Result"];
    Own 1061 [On "target_has_atomic" "64"] "AtomicI64" "Error";
    Mention 1061 [On "target_has_atomic" "64"] ["oct"; "decode"; "Decode"; "decode"];
    Own 1061 [On "target_has_atomic" "64"] "AtomicI64" "new";
    Mention 1061 [On "target_has_atomic" "64"] ["core"; "result"; "Result"; "Ok"];
    Mention 1067 [On "target_has_atomic" "8"] ["std"; "sync"; "atomic"; "AtomicI8"];
    Own 1067 [On "target_has_atomic" "8"] "AtomicI8" "Error";
    Own 1067 [On "target_has_atomic" "8"] "AtomicI8" "new";
    Mention 1073 [On "target_has_atomic" "ptr"] ["oct"; "decode"; "Decode"];
    Mention 1073 [On "target_has_atomic" "ptr"] ["std"; "sync"; "atomic"; "AtomicIsize"];
    Mention 1073 [On "target_has_atomic" "ptr"] ["oct"; "decode"; "Input"];
    Mention 1073 [On "target_has_atomic" "ptr"] ["core"; "result"; "Result"];
    Own 1073 [On "target_has_atomic" "ptr"] "AtomicIsize" "Error";
    Mention 1073 [On "target_has_atomic" "ptr"] ["oct"; "decode"; "Decode"; "decode"];
    Own 1073 [On "target_has_atomic" "ptr"] "AtomicIsize" "new";
    Mention 1073 [On "target_has_atomic" "ptr"] ["core"; "result"; "Result"; "Ok"];
    Mention 1079 [On "target_has_atomic" "16"] ["std"; "sync"; "atomic"; "AtomicU16"];
    Own 1079 [On "target_has_atomic" "16"] "AtomicU16" "Error";
    Own 1079 [On "target_has_atomic" "16"] "AtomicU16" "new";
    Mention 1085 [On "target_has_atomic" "32"] ["std"; "sync"; "atomic"; "AtomicU32"];
    Own 1085 [On "target_has_atomic" "32"] "AtomicU32" "Error";
    Own 1085 [On "target_has_atomic" "32"] "AtomicU32" "new";
    Mention 1091 [On "target_has_atomic" "64"] ["std"; "sync"; "atomic"; "AtomicU64"];
    Own 1091 [On "target_has_atomic" "64"] "AtomicU64" "Error";
    Own 1091 [On "target_has_atomic" "64"] "AtomicU64" "new";
    Mention 1097 [On "target_has_atomic" "8"] ["std"; "sync"; "atomic"; "AtomicU8"];
    Own 1097 [On "target_has_atomic" "8"] "AtomicU8" "Error";
    Own 1097 [On "target_has_atomic" "8"] "AtomicU8" "new";
    Mention 1103 [On "target_has_atomic" "ptr"] ["std"; "sync"; "atomic"; "AtomicUsize"];
    Own 1103 [On "target_has_atomic" "ptr"] "AtomicUsize" "Error";
    Own 1103 [On "target_has_atomic" "ptr"] "AtomicUsize" "new"].

(* oct/src/decode/decode_borrowed/mod.rs *)
Definition file_decode_decode_borrowed : file := File ["decode"; "decode_borrowed"]
  [Use 22 [] ["crate"; "decode"; "Decode"] "Decode" false;
    Use 24 [] ["core"; "borrow"; "Borrow"] "Borrow" false;
    Use 27 [On "feature" "alloc"] ["core"; "ffi"; "CStr"] "CStr" false;
    Use 30 [On "feature" "alloc"] ["alloc"; "boxed"; "Box"] "Box" false;
    Use 33 [On "feature" "alloc"] ["alloc"; "ffi"; "CString"] "CString" false;
    Use 36 [On "feature" "alloc"] ["alloc"; "rc"; "Rc"] "Rc" false;
    Use 39 [On "feature" "alloc"] ["alloc"; "vec"; "Vec"] "Vec" false;
    Use 42 [On "feature" "alloc"] ["alloc"; "string"; "String"] "String" false;
    Use 45 [All [On "feature" "alloc"; On "target_has_atomic" "ptr"]] ["alloc"; "sync"; "Arc"] "Arc" false;
    Item 61 [] "DecodeBorrowed"]
  []
  [Mention 61 [] ["Sized"];
    Mention 61 [] ["Borrow"];
    Mention 61 [] ["Decode"];
    Mention 63 [] ["DecodeBorrowed"];
    Mention 67 [All [On "feature" "alloc"; On "target_has_atomic" "ptr"]] ["Decode"];
    Mention 67 [All [On "feature" "alloc"; On "target_has_atomic" "ptr"]] ["DecodeBorrowed"];
    Mention 67 [All [On "feature" "alloc"; On "target_has_atomic" "ptr"]] ["Arc"];
    Mention 71 [On "feature" "alloc"] ["Decode"];
    Mention 71 [On "feature" "alloc"] ["DecodeBorrowed"];
    Mention 71 [On "feature" "alloc"] ["Box"];
    Mention 75 [On "feature" "alloc"] ["CStr"];
    Mention 75 [On "feature" "alloc"] ["CString"];
    Mention 79 [On "feature" "alloc"] ["Rc"];
    Mention 83 [On "feature" "alloc"] ["String"];
    Mention 87 [On "feature" "alloc"] ["Vec"]].

(* oct/src/decode/input/mod.rs *)
Definition file_decode_input : file := File ["decode"; "input"]
  [Use 22 [] ["crate"; "error"; "InputError"] "InputError" false;
    Use 24 [] ["core"; "ptr"; "copy_nonoverlapping"] "copy_nonoverlapping" false;
    Use 25 [] ["core"; "slice"] "slice" false;
    Item 28 [] "Input"]
  []
  [Mention 33 [] ["Input"];
    Mention 49 [] ["Result"];
    Mention 49 [] ["InputError"];
    Mention 53 [] ["Err"];
    Mention 63 [] ["slice"; "from_raw_parts"];
    Mention 68 [] ["Ok"];
    Mention 95 [] ["copy_nonoverlapping"]].

(* oct/src/encode/mod.rs *)
Definition file_encode : file := File ["encode"]
  [Use 24 [] ["crate"; "use_mod"] "use_mod" false;
    Child 26 [] "encode";
    Glob 26 [] ["encode"];
    Child 27 [] "output";
    Glob 27 [] ["output"];
    Child 28 [] "sized_encode";
    Glob 28 [] ["sized_encode"];
    Use 117 [On "feature" "proc-macro"] ["oct_macros"; "Encode"] "Encode" true;
    Use 131 [On "feature" "proc-macro"] ["oct_macros"; "SizedEncode"] "SizedEncode" true]
  []
  [Mention 26 [] ["use_mod"]].

(* oct/src/encode/encode/mod.rs *)
Definition file_encode_encode : file := File ["encode"; "encode"]
  [Use 25 [] ["crate"; "encode"; "Output"] "Output" false;
    Use 26 [] ["crate"; "error"; "CollectionEncodeError"] "CollectionEncodeError" false;
    Use 26 [] ["crate"; "error"; "EnumEncodeError"] "EnumEncodeError" false;
    Use 26 [] ["crate"; "error"; "IsizeEncodeError"] "IsizeEncodeError" false;
    Use 26 [] ["crate"; "error"; "ItemEncodeError"] "ItemEncodeError" false;
    Use 26 [] ["crate"; "error"; "RefCellEncodeError"] "RefCellEncodeError" false;
    Use 26 [] ["crate"; "error"; "UsizeEncodeError"] "UsizeEncodeError" false;
    Use 35 [] ["core"; "cell"; "Cell"] "Cell" false;
    Use 35 [] ["core"; "cell"; "LazyCell"] "LazyCell" false;
    Use 35 [] ["core"; "cell"; "RefCell"] "RefCell" false;
    Use 36 [] ["core"; "convert"; "Infallible"] "Infallible" false;
    Use 37 [] ["core"; "ffi"; "CStr"] "CStr" false;
    Use 38 [] ["core"; "hash"; "BuildHasher"] "BuildHasher" false;
    Use 39 [] ["core"; "hint"; "unreachable_unchecked"] "unreachable_unchecked" false;
    Use 40 [] ["core"; "marker"; "PhantomData"] "PhantomData" false;
    Use 40 [] ["core"; "marker"; "PhantomPinned"] "PhantomPinned" false;
    Use 41 [] ["core"; "net"; "IpAddr"] "IpAddr" false;
    Use 41 [] ["core"; "net"; "Ipv4Addr"] "Ipv4Addr" false;
    Use 41 [] ["core"; "net"; "Ipv6Addr"] "Ipv6Addr" false;
    Use 41 [] ["core"; "net"; "SocketAddr"] "SocketAddr" false;
    Use 41 [] ["core"; "net"; "SocketAddrV4"] "SocketAddrV4" false;
    Use 41 [] ["core"; "net"; "SocketAddrV6"] "SocketAddrV6" false;
    Use 49 [] ["core"; "num"; "Saturating"] "Saturating" false;
    Use 49 [] ["core"; "num"; "Wrapping"] "Wrapping" false;
    Use 50 [] ["core"; "ops"; "Bound"] "Bound" false;
    Use 50 [] ["core"; "ops"; "Range"] "Range" false;
    Use 50 [] ["core"; "ops"; "RangeFrom"] "RangeFrom" false;
    Use 50 [] ["core"; "ops"; "RangeFull"] "RangeFull" false;
    Use 50 [] ["core"; "ops"; "RangeInclusive"] "RangeInclusive" false;
    Use 50 [] ["core"; "ops"; "RangeTo"] "RangeTo" false;
    Use 50 [] ["core"; "ops"; "RangeToInclusive"] "RangeToInclusive" false;
    Use 59 [] ["core"; "time"; "Duration"] "Duration" false;
    Use 62 [On "feature" "alloc"] ["alloc"; "borrow"; "Cow"] "Cow" false;
    Use 62 [On "feature" "alloc"] ["alloc"; "borrow"; "ToOwned"] "ToOwned" false;
    Use 65 [On "feature" "alloc"] ["alloc"; "boxed"; "Box"] "Box" false;
    Use 68 [On "feature" "alloc"] ["alloc"; "collections"; "LinkedList"] "LinkedList" false;
    Use 71 [On "feature" "alloc"] ["alloc"; "ffi"; "CString"] "CString" false;
    Use 74 [On "feature" "alloc"] ["alloc"; "string"; "String"] "String" false;
    Use 77 [On "feature" "alloc"] ["alloc"; "vec"; "Vec"] "Vec" false;
    Use 80 [On "feature" "alloc"] ["alloc"; "rc"; "Rc"] "Rc" false;
    Use 83 [All [On "feature" "alloc"; On "target_has_atomic" "ptr"]] ["alloc"; "sync"; "Arc"] "Arc" false;
    Use 86 [On "feature" "std"] ["std"; "collections"; "HashMap"] "HashMap" false;
    Use 86 [On "feature" "std"] ["std"; "collections"; "HashSet"] "HashSet" false;
    Use 89 [On "feature" "std"] ["std"; "sync"; "LazyLock"] "LazyLock" false;
    Use 89 [On "feature" "std"] ["std"; "sync"; "Mutex"] "Mutex" false;
    Use 89 [On "feature" "std"] ["std"; "sync"; "RwLock"] "RwLock" false;
    Use 92 [On "feature" "std"] ["std"; "time"; "SystemTime"] "SystemTime" false;
    Use 92 [On "feature" "std"] ["std"; "time"; "UNIX_EPOCH"] "UNIX_EPOCH" false;
    Item 133 [] "Encode";
    Item 854 [] "impl_numeric";
    Item 869 [] "impl_tuple";
    Item 893 [] "impl_non_zero";
    Item 906 [] "impl_atomic"]
  []
  [Mention 146 [] ["Output"];
    Mention 146 [] ["Result"];
    Own 146 [] "Encode" "Error";
    Mention 149 [] ["Encode"];
    Mention 149 [] ["Sized"];
    Own 153 [] "T" "Error";
    Own 162 [] "mut" "Error";
    Mention 179 [] ["CollectionEncodeError"];
    Mention 179 [] ["Infallible"];
    Mention 179 [] ["ItemEncodeError"];
    Mention 189 [] ["CollectionEncodeError"; "BadItem"];
    Mention 192 [] ["Result"; "Ok"];
    Mention 197 [] ["UsizeEncodeError"];
    Mention 205 [] ["CollectionEncodeError"; "BadLength"];
    Mention 219 [All [On "feature" "alloc"; On "target_has_atomic" "ptr"]] ["Encode"];
    Mention 219 [All [On "feature" "alloc"; On "target_has_atomic" "ptr"]] ["Sized"];
    Mention 219 [All [On "feature" "alloc"; On "target_has_atomic" "ptr"]] ["Arc"];
    Mention 223 [All [On "feature" "alloc"; On "target_has_atomic" "ptr"]] ["Output"];
    Mention 223 [All [On "feature" "alloc"; On "target_has_atomic" "ptr"]] ["Result"];
    Own 223 [All [On "feature" "alloc"; On "target_has_atomic" "ptr"]] "Arc" "Error";
    Own 233 [] "bool" "Error";
    Mention 234 [] ["u8"; "from"];
    Mention 238 [] ["Bound"];
    Mention 239 [] ["EnumEncodeError"];
    Own 242 [] "Bound" "Error";
    Own 244 [] "Bound" "Included";
    Mention 245 [] ["Ok"];
    Mention 246 [] ["EnumEncodeError"; "BadField"];
    Own 249 [] "Bound" "Excluded";
    Own 254 [] "Bound" "Unbounded";
    Mention 265 [On "feature" "alloc"] ["Encode"];
    Mention 265 [On "feature" "alloc"] ["Sized"];
    Mention 265 [On "feature" "alloc"] ["Box"];
    Mention 269 [On "feature" "alloc"] ["Output"];
    Mention 269 [On "feature" "alloc"] ["Result"];
    Own 269 [On "feature" "alloc"] "Box" "Error";
    Mention 274 [] ["Copy"];
    Mention 274 [] ["Cell"];
    Own 278 [] "Cell" "Error";
    Own 287 [] "char" "Error";
    Mention 288 [] ["u32"; "from"];
    Mention 294 [On "feature" "alloc"] ["ToOwned"];
    Mention 294 [On "feature" "alloc"] ["Cow"];
    Own 298 [On "feature" "alloc"] "Cow" "Error";
    Mention 303 [] ["CStr"];
    Own 308 [] "CStr" "Error";
    Mention 315 [On "feature" "alloc"] ["CString"];
    Mention 316 [On "feature" "alloc"] ["CStr"];
    Own 320 [On "feature" "alloc"] "CString" "Error";
    Mention 325 [] ["Duration"];
    Own 330 [] "Duration" "Error";
    Mention 340 [On "feature" "std"] ["Encode"];
    Mention 340 [On "feature" "std"] ["HashMap"];
    Mention 344 [On "feature" "std"] ["BuildHasher"];
    Mention 349 [On "feature" "std"] ["Output"];
    Mention 349 [On "feature" "std"] ["Result"];
    Own 349 [On "feature" "std"] "HashMap" "Error";
    Mention 355 [On "feature" "std"] ["Result"; "Ok"];
    Mention 361 [On "feature" "std"] ["HashSet"];
    Own 369 [On "feature" "std"] "HashSet" "Error";
    Own 384 [] "Infallible" "Error";
    Mention 387 [] ["unreachable_unchecked"];
    Mention 391 [] ["IpAddr"];
    Own 398 [] "IpAddr" "Error";
    Own 402 [] "IpAddr" "V4";
    Mention 403 [] ["EnumEncodeError"; "BadDiscriminant"];
    Own 407 [] "IpAddr" "V6";
    Mention 417 [] ["Ipv4Addr"];
    Own 422 [] "Ipv4Addr" "Error";
    Mention 428 [] ["Ipv6Addr"];
    Own 433 [] "Ipv6Addr" "Error";
    Mention 440 [] ["IsizeEncodeError"];
    Own 444 [] "isize" "Error";
    Mention 445 [] ["i16"; "try_from"];
    Mention 453 [] ["LazyCell"];
    Own 457 [] "LazyCell" "Error";
    Mention 464 [On "feature" "std"] ["LazyLock"];
    Own 468 [On "feature" "std"] "LazyLock" "Error";
    Mention 475 [On "feature" "alloc"] ["LinkedList"];
    Mention 476 [On "feature" "alloc"] ["CollectionEncodeError"];
    Mention 476 [On "feature" "alloc"] ["UsizeEncodeError"];
    Own 479 [On "feature" "alloc"] "LinkedList" "Error";
    Mention 483 [On "feature" "alloc"] ["CollectionEncodeError"; "BadLength"];
    Mention 488 [On "feature" "alloc"] ["CollectionEncodeError"; "BadItem"];
    Mention 491 [On "feature" "alloc"] ["Result"; "Ok"];
    Mention 497 [On "feature" "std"] ["Sized"];
    Mention 497 [On "feature" "std"] ["Mutex"];
    Own 501 [On "feature" "std"] "Mutex" "Error";
    Mention 504 [On "feature" "std"] ["std"; "sync"; "PoisonError"; "into_inner"];
    Mention 509 [] ["Option"];
    Own 516 [] "Option" "Error";
    Mention 518 [] ["None"];
    Mention 524 [] ["Some"];
    Mention 537 [] ["PhantomData"];
    Own 541 [] "PhantomData" "Error";
    Mention 546 [] ["PhantomPinned"];
    Own 550 [] "PhantomPinned" "Error";
    Mention 555 [] ["Range"];
    Own 559 [] "Range" "Error";
    Mention 567 [] ["RangeFrom"];
    Own 571 [] "RangeFrom" "Error";
    Mention 576 [] ["RangeFull"];
    Own 580 [] "RangeFull" "Error";
    Mention 585 [] ["RangeInclusive"];
    Own 589 [] "RangeInclusive" "Error";
    Mention 597 [] ["RangeTo"];
    Own 601 [] "RangeTo" "Error";
    Mention 606 [] ["RangeToInclusive"];
    Own 610 [] "RangeToInclusive" "Error";
    Mention 617 [On "feature" "alloc"] ["Rc"];
    Own 621 [On "feature" "alloc"] "Rc" "Error";
    Mention 626 [] ["RefCell"];
    Mention 627 [] ["RefCellEncodeError"];
    Own 630 [] "RefCell" "Error";
    Mention 633 [] ["RefCellEncodeError"; "BadBorrow"];
    Mention 636 [] ["RefCellEncodeError"; "BadValue"];
    Mention 645 [] ["Into"];
    Own 654 [] "Result" "Error";
    Mention 668 [] ["Into"; "into"];
    Mention 678 [On "feature" "std"] ["RwLock"];
    Own 682 [On "feature" "std"] "RwLock" "Error";
    Mention 685 [On "feature" "std"] ["Ok"];
    Mention 690 [] ["Saturating"];
    Own 694 [] "Saturating" "Error";
    Mention 699 [] ["SocketAddr"];
    Own 705 [] "SocketAddr" "Error";
    Own 709 [] "SocketAddr" "V4";
    Own 714 [] "SocketAddr" "V6";
    Mention 724 [] ["SocketAddrV4"];
    Own 729 [] "SocketAddrV4" "Error";
    Mention 737 [] ["SocketAddrV6"];
    Own 742 [] "SocketAddrV6" "Error";
    Own 757 [] "str" "Error";
    Mention 764 [On "feature" "alloc"] ["String"];
    Own 769 [On "feature" "alloc"] "String" "Error";
    Mention 776 [On "feature" "std"] ["SystemTime"];
    Mention 777 [On "feature" "std"] ["Infallible"];
    Own 791 [On "feature" "std"] "SystemTime" "Error";
    Mention 792 [On "feature" "std"] ["UNIX_EPOCH"];
    Own 825 [] "usize" "Error";
    Mention 826 [] ["u16"; "try_from"];
    Mention 836 [On "feature" "alloc"] ["Vec"];
    Own 840 [On "feature" "alloc"] "Vec" "Error";
    Mention 845 [] ["Wrapping"];
    Own 849 [] "Wrapping" "Error";
    Mention 932 [] ["impl_numeric"];
    Mention 932 [] ["oct"; "encode"; "Encode"];
    Mention 932 [] ["core"; "convert"; "Infallible"];
    Mention 932 [] ["core"; "result"; "Result"];
    Own 932 [] "f32" "Error";
    Own 933 [] "f64" "Error";
    Own 934 [] "i128" "Error";
    Own 935 [] "i16" "Error";
    Own 936 [] "i32" "Error";
    Own 937 [] "i64" "Error";
    Own 938 [] "i8" "Error";
    Own 939 [] "u128" "Error";
    Own 940 [] "u16" "Error";
    Own 941 [] "u32" "Error";
    Own 942 [] "u64" "Error";
    Own 943 [] "u8" "Error";
    Mention 945 [] ["impl_tuple"];
    Mention 945 [] ["oct"; "encode"; "Output"];
    Own 945 [] "T0" "Error";
    Mention 1055 [] ["impl_non_zero"];
    Mention 1055 [] ["core"; "num"; "NonZero"];
    Own 1055 [] "NonZero" "Error";
    Mention 1068 [] ["impl_atomic"];
    Mention 1068 [On "target_has_atomic" "8"] ["oct"; "encode"; "Encode"];
    Mention 1068 [On "target_has_atomic" "8"] ["std"; "sync"; "atomic"; "AtomicBool"];
    Mention 1068 [On "target_has_atomic" "8"] ["oct"; "encode"; "Output"];
    Mention 1068 [On "target_has_atomic" "8"] ["core"; "result"; "Result"];
    Own 1068 [On "target_has_atomic" "8"] "AtomicBool" "Error";
    Mention 1068 [On "target_has_atomic" "8"] ["std"; "sync"; "atomic"; "Ordering"];
    Mention 1074 [On "target_has_atomic" "16"] ["oct"; "encode"; "Encode"];
    Mention 1074 [On "target_has_atomic" "16"] ["std"; "sync"; "atomic"; "AtomicI16"];
    Mention 1074 [On "target_has_atomic" "16"] ["oct"; "encode"; "Output"];
    Mention 1074 [On "target_has_atomic" "16"] ["core"; "result"; "Result"];
    Own 1074 [On "target_has_atomic" "16"] "AtomicI16" "Error";
    Mention 1074 [On "target_has_atomic" "16"] ["std"; "sync"; "atomic"; "Ordering"];
    Mention 1080 [On "target_has_atomic" "32"] ["oct"; "encode"; "Encode"];
    Mention 1080 [On "target_has_atomic" "32"] ["std"; "sync"; "atomic"; "AtomicI32"];
    Mention 1080 [On "target_has_atomic" "32"] ["oct"; "encode"; "Output"];
    Mention 1080 [On "target_has_atomic" "32"] ["core"; "result"; "Result"];
    Own 1080 [On "target_has_atomic" "32"] "AtomicI32" "Error";
    Mention 1080 [On "target_has_atomic" "32"] ["std"; "sync"; "atomic"; "Ordering"];
    Mention 1086 [On "target_has_atomic" "64"] ["oct"; "encode"; "Encode"];
    Mention 1086 [On "target_has_atomic" "64"] ["std"; "sync"; "atomic"; "AtomicI64"];
    Mention 1086 [On "target_has_atomic" "64"] ["oct"; "encode"; "Output"];
    Mention 1086 [On "target_has_atomic" "64"] ["core"; "result"; "Result"];
    Own 1086 [On "target_has_atomic" "64"] "AtomicI64" "Error";
    Mention 1086 [On "target_has_atomic" "64"] ["std"; "sync"; "atomic"; "Ordering"];
    Mention 1092 [On "target_has_atomic" "8"] ["std"; "sync"; "atomic"; "AtomicI8"];
    Own 1092 [On "target_has_atomic" "8"] "AtomicI8" "Error";
    Mention 1098 [On "target_has_atomic" "ptr"] ["oct"; "encode"; "Encode"];
    Mention 1098 [On "target_has_atomic" "ptr"] ["std"; "sync"; "atomic"; "AtomicIsize"];
    Mention 1098 [On "target_has_atomic" "ptr"] ["oct"; "encode"; "Output"];
    Mention 1098 [On "target_has_atomic" "ptr"] ["core"; "result"; "Result"];
    Own 1098 [On "target_has_atomic" "ptr"] "AtomicIsize" "Error";
    Mention 1098 [On "target_has_atomic" "ptr"] ["std"; "sync"; "atomic"; "Ordering"];
    Mention 1104 [On "target_has_atomic" "16"] ["std"; "sync"; "atomic"; "AtomicU16"];
    Own 1104 [On "target_has_atomic" "16"] "AtomicU16" "Error";
    Mention 1110 [On "target_has_atomic" "32"] ["std"; "sync"; "atomic"; "AtomicU32"];
    Own 1110 [On "target_has_atomic" "32"] "AtomicU32" "Error";
    Mention 1116 [On "target_has_atomic" "64"] ["std"; "sync"; "atomic"; "AtomicU64"];
    Own 1116 [On "target_has_atomic" "64"] "AtomicU64" "Error";
    Mention 1122 [On "target_has_atomic" "8"] ["std"; "sync"; "atomic"; "AtomicU8"];
    Own 1122 [On "target_has_atomic" "8"] "AtomicU8" "Error";
    Mention 1128 [On "target_has_atomic" "ptr"] ["std"; "sync"; "atomic"; "AtomicUsize"];
    Own 1128 [On "target_has_atomic" "ptr"] "AtomicUsize" "Error"].

(* oct/src/encode/output/mod.rs *)
Definition file_encode_output : file := File ["encode"; "output"]
  [Use 22 [] ["crate"; "error"; "OutputError"] "OutputError" false;
    Use 24 [] ["core"; "borrow"; "Borrow"] "Borrow" false;
    Use 25 [] ["core"; "ptr"; "copy_nonoverlapping"] "copy_nonoverlapping" false;
    Use 26 [] ["core"; "slice"] "slice" false;
    Item 30 [] "Output"]
  []
  [Mention 35 [] ["Output"];
    Mention 49 [] ["Result"];
    Mention 49 [] ["OutputError"];
    Mention 54 [] ["Err"];
    Mention 65 [] ["copy_nonoverlapping"];
    Mention 70 [] ["Ok"];
    Mention 88 [] ["slice"; "from_raw_parts"];
    Mention 116 [] ["AsRef"];
    Mention 123 [] ["Borrow"];
    Mention 130 [] ["PartialEq"]].

(* oct/src/encode/sized_encode/mod.rs *)
Definition file_encode_sized_encode : file := File ["encode"; "sized_encode"]
  [Use 25 [] ["crate"; "encode"; "Encode"] "Encode" false;
    Use 27 [] ["core"; "cell"; "Cell"] "Cell" false;
    Use 27 [] ["core"; "cell"; "LazyCell"] "LazyCell" false;
    Use 27 [] ["core"; "cell"; "RefCell"] "RefCell" false;
    Use 28 [] ["core"; "convert"; "Infallible"] "Infallible" false;
    Use 29 [] ["core"; "marker"; "PhantomData"] "PhantomData" false;
    Use 30 [] ["core"; "net"; "IpAddr"] "IpAddr" false;
    Use 30 [] ["core"; "net"; "Ipv4Addr"] "Ipv4Addr" false;
    Use 30 [] ["core"; "net"; "Ipv6Addr"] "Ipv6Addr" false;
    Use 30 [] ["core"; "net"; "SocketAddr"] "SocketAddr" false;
    Use 30 [] ["core"; "net"; "SocketAddrV4"] "SocketAddrV4" false;
    Use 30 [] ["core"; "net"; "SocketAddrV6"] "SocketAddrV6" false;
    Use 38 [] ["core"; "num"; "Saturating"] "Saturating" false;
    Use 38 [] ["core"; "num"; "Wrapping"] "Wrapping" false;
    Use 39 [] ["core"; "ops"; "Bound"] "Bound" false;
    Use 39 [] ["core"; "ops"; "Range"] "Range" false;
    Use 39 [] ["core"; "ops"; "RangeFrom"] "RangeFrom" false;
    Use 39 [] ["core"; "ops"; "RangeFull"] "RangeFull" false;
    Use 39 [] ["core"; "ops"; "RangeInclusive"] "RangeInclusive" false;
    Use 39 [] ["core"; "ops"; "RangeTo"] "RangeTo" false;
    Use 39 [] ["core"; "ops"; "RangeToInclusive"] "RangeToInclusive" false;
    Use 48 [] ["core"; "time"; "Duration"] "Duration" false;
    Use 51 [On "feature" "alloc"] ["alloc"; "borrow"; "Cow"] "Cow" false;
    Use 51 [On "feature" "alloc"] ["alloc"; "borrow"; "ToOwned"] "ToOwned" false;
    Use 54 [On "feature" "alloc"] ["alloc"; "boxed"; "Box"] "Box" false;
    Use 57 [On "feature" "alloc"] ["alloc"; "rc"; "Rc"] "Rc" false;
    Use 60 [All [On "feature" "alloc"; On "target_has_atomic" "ptr"]] ["alloc"; "sync"; "Arc"] "Arc" false;
    Use 63 [On "feature" "std"] ["std"; "sync"; "LazyLock"] "LazyLock" false;
    Use 63 [On "feature" "std"] ["std"; "sync"; "Mutex"] "Mutex" false;
    Use 63 [On "feature" "std"] ["std"; "sync"; "RwLock"] "RwLock" false;
    Use 66 [On "feature" "std"] ["std"; "time"; "SystemTime"] "SystemTime" false;
    Item 78 [] "SizedEncode";
    Item 287 [] "impl_numeric";
    Item 295 [] "impl_tuple";
    Item 308 [] "impl_non_zero";
    Item 316 [] "impl_atomic"]
  []
  [Mention 78 [] ["Encode"];
    Mention 78 [] ["Sized"];
    Mention 85 [] ["SizedEncode"];
    Mention 106 [All [On "feature" "alloc"; On "target_has_atomic" "ptr"]] ["SizedEncode"];
    Mention 106 [All [On "feature" "alloc"; On "target_has_atomic" "ptr"]] ["Arc"];
    Mention 111 [] ["u8"; "MAX_ENCODED_SIZE"];
    Mention 114 [] ["Bound"];
    Mention 122 [On "feature" "alloc"] ["SizedEncode"];
    Mention 122 [On "feature" "alloc"] ["Box"];
    Mention 126 [] ["Copy"];
    Mention 126 [] ["Cell"];
    Mention 131 [] ["u32"; "MAX_ENCODED_SIZE"];
    Mention 136 [On "feature" "alloc"] ["ToOwned"];
    Mention 136 [On "feature" "alloc"] ["Cow"];
    Mention 140 [] ["Duration"];
    Mention 142 [] ["u64"; "MAX_ENCODED_SIZE"];
    Mention 146 [] ["Infallible"];
    Mention 150 [] ["IpAddr"];
    Mention 153 [] ["Ipv6Addr"; "MAX_ENCODED_SIZE"];
    Mention 156 [] ["Ipv4Addr"];
    Mention 160 [] ["Ipv6Addr"];
    Mention 161 [] ["u128"; "MAX_ENCODED_SIZE"];
    Mention 165 [] ["i16"; "MAX_ENCODED_SIZE"];
    Mention 168 [] ["LazyCell"];
    Mention 174 [On "feature" "std"] ["SizedEncode"];
    Mention 174 [On "feature" "std"] ["LazyLock"];
    Mention 180 [On "feature" "std"] ["Mutex"];
    Mention 184 [] ["Option"];
    Mention 186 [] ["bool"; "MAX_ENCODED_SIZE"];
    Mention 190 [] ["PhantomData"];
    Mention 194 [] ["Range"];
    Mention 198 [] ["RangeFrom"];
    Mention 202 [] ["RangeFull"];
    Mention 206 [] ["RangeInclusive"];
    Mention 210 [] ["RangeTo"];
    Mention 214 [] ["RangeToInclusive"];
    Mention 220 [On "feature" "alloc"] ["Rc"];
    Mention 224 [] ["RefCell"];
    Mention 228 [] ["core"; "result"; "Result"];
    Mention 240 [On "feature" "std"] ["RwLock"];
    Mention 244 [] ["Saturating"];
    Mention 248 [] ["SocketAddr"];
    Mention 251 [] ["SocketAddrV6"; "MAX_ENCODED_SIZE"];
    Mention 254 [] ["SocketAddrV4"];
    Mention 256 [] ["Ipv4Addr"; "MAX_ENCODED_SIZE"];
    Mention 257 [] ["u16"; "MAX_ENCODED_SIZE"];
    Mention 261 [] ["SocketAddrV6"];
    Mention 271 [On "feature" "std"] ["SystemTime"];
    Mention 272 [On "feature" "std"] ["i64"; "MAX_ENCODED_SIZE"];
    Mention 283 [] ["Wrapping"];
    Mention 332 [] ["impl_numeric"];
    Mention 332 [] ["oct"; "encode"; "SizedEncode"];
    Mention 332 [] ["core"; "mem"; "size_of"];
    Mention 345 [] ["impl_tuple"];
    Mention 455 [] ["impl_non_zero"];
    Mention 455 [] ["core"; "num"; "NonZero"];
    Mention 468 [] ["impl_atomic"];
    Mention 468 [On "target_has_atomic" "8"] ["oct"; "encode"; "SizedEncode"];
    Mention 468 [On "target_has_atomic" "8"] ["std"; "sync"; "atomic"; "AtomicBool"];
    Mention 474 [On "target_has_atomic" "16"] ["oct"; "encode"; "SizedEncode"];
    Mention 474 [On "target_has_atomic" "16"] ["std"; "sync"; "atomic"; "AtomicI16"];
    Mention 480 [On "target_has_atomic" "32"] ["oct"; "encode"; "SizedEncode"];
    Mention 480 [On "target_has_atomic" "32"] ["std"; "sync"; "atomic"; "AtomicI32"];
    Mention 486 [On "target_has_atomic" "64"] ["oct"; "encode"; "SizedEncode"];
    Mention 486 [On "target_has_atomic" "64"] ["std"; "sync"; "atomic"; "AtomicI64"];
    Mention 492 [On "target_has_atomic" "8"] ["std"; "sync"; "atomic"; "AtomicI8"];
    Mention 498 [On "target_has_atomic" "ptr"] ["oct"; "encode"; "SizedEncode"];
    Mention 498 [On "target_has_atomic" "ptr"] ["std"; "sync"; "atomic"; "AtomicIsize"];
    Mention 504 [On "target_has_atomic" "16"] ["std"; "sync"; "atomic"; "AtomicU16"];
    Mention 510 [On "target_has_atomic" "32"] ["std"; "sync"; "atomic"; "AtomicU32"];
    Mention 516 [On "target_has_atomic" "64"] ["std"; "sync"; "atomic"; "AtomicU64"];
    Mention 522 [On "target_has_atomic" "8"] ["std"; "sync"; "atomic"; "AtomicU8"];
    Mention 528 [On "target_has_atomic" "ptr"] ["std"; "sync"; "atomic"; "AtomicUsize"]].

(* oct/src/error/mod.rs *)
Definition file_error : file := File ["error"]
  [Use 27 [] ["crate"; "use_mod"] "use_mod" false;
    Child 29 [] "char_decode_error";
    Glob 29 [] ["char_decode_error"];
    Child 30 [] "collection_decode_error";
    Glob 30 [] ["collection_decode_error"];
    Child 31 [] "collection_encode_error";
    Glob 31 [] ["collection_encode_error"];
    Child 32 [] "enum_decode_error";
    Glob 32 [] ["enum_decode_error"];
    Child 33 [] "enum_encode_error";
    Glob 33 [] ["enum_encode_error"];
    Child 34 [] "generic_decode_error";
    Glob 34 [] ["generic_decode_error"];
    Child 35 [] "generic_encode_error";
    Glob 35 [] ["generic_encode_error"];
    Child 36 [] "input_error";
    Glob 36 [] ["input_error"];
    Child 37 [] "isize_encode_error";
    Glob 37 [] ["isize_encode_error"];
    Child 38 [] "item_decode_error";
    Glob 38 [] ["item_decode_error"];
    Child 39 [] "item_encode_error";
    Glob 39 [] ["item_encode_error"];
    Child 40 [] "length_error";
    Glob 40 [] ["length_error"];
    Child 41 [] "non_zero_decode_error";
    Glob 41 [] ["non_zero_decode_error"];
    Child 42 [] "output_error";
    Glob 42 [] ["output_error"];
    Child 43 [] "ref_cell_encode_error";
    Glob 43 [] ["ref_cell_encode_error"];
    Child 44 [] "string_error";
    Glob 44 [] ["string_error"];
    Child 45 [] "usize_encode_error";
    Glob 45 [] ["usize_encode_error"];
    Child 46 [] "utf16_error";
    Glob 46 [] ["utf16_error"];
    Child 47 [] "utf8_error";
    Glob 47 [] ["utf8_error"];
    Child 50 [On "feature" "alloc"] "c_string_decode_error";
    Glob 50 [On "feature" "alloc"] ["c_string_decode_error"];
    Child 53 [On "feature" "std"] "system_time_decode_error";
    Glob 53 [On "feature" "std"] ["system_time_decode_error"]]
  []
  [Mention 29 [] ["use_mod"];
    Mention 50 [On "feature" "alloc"] ["use_mod"];
    Mention 53 [On "feature" "std"] ["use_mod"]].

(* oct/src/error/char_decode_error.rs *)
Definition file_error_char_decode_error : file := File ["error"; "char_decode_error"]
  [Use 22 [] ["core"; "error"; "Error"] "Error" false;
    Use 23 [] ["core"; "fmt"] "fmt" false;
    Use 23 [] ["core"; "fmt"; "Display"] "Display" false;
    Use 23 [] ["core"; "fmt"; "Formatter"] "Formatter" false;
    Item 34 [] "CharDecodeError"]
  []
  [Mention 39 [] ["Display"];
    Mention 39 [] ["CharDecodeError"];
    Mention 41 [] ["Formatter"];
    Mention 41 [] ["fmt"; "Result"];
    Mention 46 [] ["Error"]].

(* oct/src/error/collection_decode_error.rs *)
Definition file_error_collection_decode_error : file := File ["error"; "collection_decode_error"]
  [Use 22 [] ["core"; "convert"; "Infallible"] "Infallible" false;
    Use 23 [] ["core"; "error"; "Error"] "Error" false;
    Use 24 [] ["core"; "fmt"] "fmt" false;
    Use 24 [] ["core"; "fmt"; "Display"] "Display" false;
    Use 24 [] ["core"; "fmt"; "Formatter"] "Formatter" false;
    Item 36 [] "CollectionDecodeError"]
  [Variant 42 [] "CollectionDecodeError" "BadLength";
    Variant 48 [] "CollectionDecodeError" "BadItem"]
  [Mention 51 [] ["Display"];
    Mention 51 [] ["CollectionDecodeError"];
    Mention 57 [] ["Formatter"];
    Mention 57 [] ["fmt"; "Result"];
    Own 59 [] "CollectionDecodeError" "BadLength";
    Own 62 [] "CollectionDecodeError" "BadItem";
    Mention 68 [] ["Error"];
    Mention 74 [] ["Option"];
    Mention 76 [] ["Some"];
    Mention 83 [] ["From"];
    Mention 83 [] ["Infallible"];
    Mention 85 [] ["Into"]].

(* oct/src/error/collection_encode_error.rs *)
Definition file_error_collection_encode_error : file := File ["error"; "collection_encode_error"]
  [Use 22 [] ["core"; "convert"; "Infallible"] "Infallible" false;
    Use 23 [] ["core"; "error"; "Error"] "Error" false;
    Use 24 [] ["core"; "fmt"] "fmt" false;
    Use 24 [] ["core"; "fmt"; "Display"] "Display" false;
    Use 24 [] ["core"; "fmt"; "Formatter"] "Formatter" false;
    Item 32 [] "CollectionEncodeError"]
  [Variant 34 [] "CollectionEncodeError" "BadLength";
    Variant 37 [] "CollectionEncodeError" "BadItem"]
  [Mention 40 [] ["Display"];
    Mention 40 [] ["CollectionEncodeError"];
    Mention 46 [] ["Formatter"];
    Mention 46 [] ["fmt"; "Result"];
    Own 48 [] "CollectionEncodeError" "BadLength";
    Own 51 [] "CollectionEncodeError" "BadItem";
    Mention 57 [] ["Error"];
    Mention 63 [] ["Option"];
    Mention 65 [] ["Some"];
    Mention 72 [] ["From"];
    Mention 72 [] ["Infallible"];
    Mention 74 [] ["Into"]].

(* oct/src/error/enum_decode_error.rs *)
Definition file_error_enum_decode_error : file := File ["error"; "enum_decode_error"]
  [Use 22 [] ["crate"; "decode"; "Decode"] "Decode" false;
    Use 24 [] ["core"; "convert"; "Infallible"] "Infallible" false;
    Use 25 [] ["core"; "error"; "Error"] "Error" false;
    Use 26 [] ["core"; "fmt"] "fmt" false;
    Use 26 [] ["core"; "fmt"; "Debug"] "Debug" false;
    Use 26 [] ["core"; "fmt"; "Display"] "Display" false;
    Use 26 [] ["core"; "fmt"; "Formatter"] "Formatter" false;
    Item 31 [] "EnumDecodeError"]
  [Variant 33 [] "EnumDecodeError" "InvalidDiscriminant";
    Variant 39 [] "EnumDecodeError" "UnassignedDiscriminant";
    Variant 45 [] "EnumDecodeError" "BadField"]
  [Mention 31 [] ["Decode"];
    Mention 48 [] ["Display"];
    Mention 48 [] ["EnumDecodeError"];
    Mention 54 [] ["Formatter"];
    Mention 54 [] ["fmt"; "Result"];
    Own 56 [] "EnumDecodeError" "InvalidDiscriminant";
    Own 59 [] "EnumDecodeError" "UnassignedDiscriminant";
    Own 62 [] "EnumDecodeError" "BadField";
    Mention 68 [] ["Error"];
    Mention 70 [] ["Debug"];
    Mention 74 [] ["Option"];
    Mention 76 [] ["Some"];
    Mention 80 [] ["None"];
    Mention 85 [] ["From"];
    Mention 85 [] ["Infallible"];
    Mention 87 [] ["Into"]].

(* oct/src/error/enum_encode_error.rs *)
Definition file_error_enum_encode_error : file := File ["error"; "enum_encode_error"]
  [Use 22 [] ["crate"; "encode"; "Encode"] "Encode" false;
    Use 24 [] ["core"; "convert"; "Infallible"] "Infallible" false;
    Use 25 [] ["core"; "error"; "Error"] "Error" false;
    Use 26 [] ["core"; "fmt"] "fmt" false;
    Use 26 [] ["core"; "fmt"; "Debug"] "Debug" false;
    Use 26 [] ["core"; "fmt"; "Display"] "Display" false;
    Use 26 [] ["core"; "fmt"; "Formatter"] "Formatter" false;
    Item 31 [] "EnumEncodeError"]
  [Variant 33 [] "EnumEncodeError" "BadDiscriminant";
    Variant 36 [] "EnumEncodeError" "BadField"]
  [Mention 31 [] ["Encode"];
    Mention 39 [] ["Display"];
    Mention 39 [] ["EnumEncodeError"];
    Mention 45 [] ["Formatter"];
    Mention 45 [] ["fmt"; "Result"];
    Own 47 [] "EnumEncodeError" "BadDiscriminant";
    Own 50 [] "EnumEncodeError" "BadField";
    Mention 56 [] ["Error"];
    Mention 58 [] ["Debug"];
    Mention 62 [] ["Option"];
    Mention 64 [] ["Some"];
    Mention 71 [] ["From"];
    Mention 71 [] ["Infallible"];
    Mention 73 [] ["Into"]].

(* oct/src/error/generic_decode_error.rs *)
Definition file_error_generic_decode_error : file := File ["error"; "generic_decode_error"]
  [Use 22 [] ["crate"; "PrimitiveDiscriminant"] "PrimitiveDiscriminant" false;
    Use 23 [] ["crate"; "decode"; "Decode"] "Decode" false;
    Use 24 [] ["crate"; "error"; "CollectionDecodeError"] "CollectionDecodeError" false;
    Use 24 [] ["crate"; "error"; "EnumDecodeError"] "EnumDecodeError" false;
    Use 24 [] ["crate"; "error"; "ItemDecodeError"] "ItemDecodeError" false;
    Use 24 [] ["crate"; "error"; "NonZeroDecodeError"] "NonZeroDecodeError" false;
    Use 24 [] ["crate"; "error"; "LengthError"] "LengthError" false;
    Use 24 [] ["crate"; "error"; "Utf8Error"] "Utf8Error" false;
    Use 24 [] ["crate"; "error"; "SystemTimeDecodeError"] "SystemTimeDecodeError" false;
    Use 35 [On "feature" "alloc"] ["crate"; "error"; "CStringDecodeError"] "CStringDecodeError" false;
    Use 37 [] ["core"; "convert"; "Infallible"] "Infallible" false;
    Use 38 [] ["core"; "error"; "Error"] "Error" false;
    Use 39 [] ["core"; "fmt"] "fmt" false;
    Use 39 [] ["core"; "fmt"; "Display"] "Display" false;
    Use 39 [] ["core"; "fmt"; "Formatter"] "Formatter" false;
    Use 40 [] ["core"; "hint"; "unreachable_unchecked"] "unreachable_unchecked" false;
    Item 49 [] "GenericDecodeError"]
  [Variant 51 [] "GenericDecodeError" "BadString";
    Variant 56 [On "feature" "std"] "GenericDecodeError" "NullString";
    Variant 59 [] "GenericDecodeError" "NullInteger";
    Variant 62 [] "GenericDecodeError" "SmallBuffer";
    Variant 67 [] "GenericDecodeError" "UnassignedDiscriminant";
    Variant 75 [On "feature" "std"] "GenericDecodeError" "NarrowSystemTime"]
  [Mention 51 [] ["Utf8Error"];
    Mention 56 [On "feature" "std"] ["CStringDecodeError"];
    Mention 59 [] ["NonZeroDecodeError"];
    Mention 62 [] ["LengthError"];
    Mention 75 [On "feature" "std"] ["SystemTimeDecodeError"];
    Mention 78 [] ["Display"];
    Mention 78 [] ["GenericDecodeError"];
    Mention 80 [] ["Formatter"];
    Mention 80 [] ["fmt"; "Result"];
    Own 82 [] "GenericDecodeError" "BadString";
    Own 85 [] "GenericDecodeError" "NullString";
    Own 88 [] "GenericDecodeError" "NullInteger";
    Own 91 [] "GenericDecodeError" "SmallBuffer";
    Own 94 [] "GenericDecodeError" "UnassignedDiscriminant";
    Own 98 [On "feature" "std"] "GenericDecodeError" "NarrowSystemTime";
    Mention 104 [] ["Error"];
    Mention 106 [] ["Option"];
    Mention 108 [] ["Some"];
    Own 111 [On "feature" "std"] "GenericDecodeError" "NullString";
    Mention 111 [On "feature" "std"] ["Some"];
    Mention 120 [] ["None"];
    Mention 125 [] ["From"];
    Mention 125 [] ["CollectionDecodeError"];
    Mention 127 [] ["Into"];
    Mention 144 [On "feature" "alloc"] ["From"];
    Mention 144 [On "feature" "alloc"] ["CStringDecodeError"];
    Mention 144 [On "feature" "alloc"] ["GenericDecodeError"];
    Own 147 [On "feature" "alloc"] "GenericDecodeError" "NullString";
    Mention 151 [] ["EnumDecodeError"];
    Mention 153 [] ["Decode"];
    Mention 153 [] ["PrimitiveDiscriminant"];
    Mention 170 [] ["Infallible"];
    Mention 175 [] ["unreachable_unchecked"];
    Mention 179 [] ["ItemDecodeError"];
    Mention 202 [On "feature" "std"] ["From"];
    Mention 202 [On "feature" "std"] ["GenericDecodeError"]].

(* oct/src/error/generic_encode_error.rs *)
Definition file_error_generic_encode_error : file := File ["error"; "generic_encode_error"]
  [Use 22 [] ["crate"; "encode"; "Encode"] "Encode" false;
    Use 23 [] ["crate"; "error"; "CollectionEncodeError"] "CollectionEncodeError" false;
    Use 23 [] ["crate"; "error"; "EnumEncodeError"] "EnumEncodeError" false;
    Use 23 [] ["crate"; "error"; "IsizeEncodeError"] "IsizeEncodeError" false;
    Use 23 [] ["crate"; "error"; "ItemEncodeError"] "ItemEncodeError" false;
    Use 23 [] ["crate"; "error"; "UsizeEncodeError"] "UsizeEncodeError" false;
    Use 31 [] ["core"; "cell"; "BorrowError"] "BorrowError" false;
    Use 32 [] ["core"; "convert"; "Infallible"] "Infallible" false;
    Use 33 [] ["core"; "error"; "Error"] "Error" false;
    Use 34 [] ["core"; "fmt"] "fmt" false;
    Use 34 [] ["core"; "fmt"; "Display"] "Display" false;
    Use 34 [] ["core"; "fmt"; "Formatter"] "Formatter" false;
    Use 35 [] ["core"; "hint"; "unreachable_unchecked"] "unreachable_unchecked" false;
    Item 44 [] "GenericEncodeError"]
  [Variant 46 [] "GenericEncodeError" "BadBorrow";
    Variant 49 [] "GenericEncodeError" "LargeIsize";
    Variant 52 [] "GenericEncodeError" "LargeUsize"]
  [Mention 46 [] ["BorrowError"];
    Mention 49 [] ["IsizeEncodeError"];
    Mention 52 [] ["UsizeEncodeError"];
    Mention 55 [] ["Display"];
    Mention 55 [] ["GenericEncodeError"];
    Mention 57 [] ["Formatter"];
    Mention 57 [] ["fmt"; "Result"];
    Own 59 [] "GenericEncodeError" "BadBorrow";
    Own 62 [] "GenericEncodeError" "LargeIsize";
    Own 65 [] "GenericEncodeError" "LargeUsize";
    Mention 72 [] ["Error"];
    Mention 74 [] ["Option"];
    Mention 76 [] ["Some"];
    Mention 85 [] ["From"];
    Mention 92 [] ["CollectionEncodeError"];
    Mention 94 [] ["Into"];
    Mention 109 [] ["EnumEncodeError"];
    Mention 111 [] ["Encode"];
    Mention 126 [] ["Infallible"];
    Mention 131 [] ["unreachable_unchecked"];
    Mention 142 [] ["ItemEncodeError"]].

(* oct/src/error/input_error.rs *)
Definition file_error_input_error : file := File ["error"; "input_error"]
  [Use 22 [] ["core"; "error"; "Error"] "Error" false;
    Use 23 [] ["core"; "fmt"] "fmt" false;
    Use 23 [] ["core"; "fmt"; "Display"] "Display" false;
    Use 23 [] ["core"; "fmt"; "Formatter"] "Formatter" false;
    Item 30 [] "InputError"]
  []
  [Mention 41 [] ["Display"];
    Mention 41 [] ["InputError"];
    Mention 43 [] ["Formatter"];
    Mention 43 [] ["fmt"; "Result"];
    Mention 54 [] ["Error"]].

(* oct/src/error/isize_encode_error.rs *)
Definition file_error_isize_encode_error : file := File ["error"; "isize_encode_error"]
  [Use 22 [] ["core"; "error"; "Error"] "Error" false;
    Use 23 [] ["core"; "fmt"] "fmt" false;
    Use 23 [] ["core"; "fmt"; "Display"] "Display" false;
    Use 23 [] ["core"; "fmt"; "Formatter"] "Formatter" false;
    Item 30 [] "IsizeEncodeError"]
  []
  [Mention 35 [] ["Display"];
    Mention 35 [] ["IsizeEncodeError"];
    Mention 37 [] ["Formatter"];
    Mention 37 [] ["fmt"; "Result"];
    Mention 42 [] ["i16"; "MIN"];
    Mention 43 [] ["i16"; "MAX"];
    Mention 48 [] ["Error"]].

(* oct/src/error/item_decode_error.rs *)
Definition file_error_item_decode_error : file := File ["error"; "item_decode_error"]
  [Use 22 [] ["core"; "convert"; "Infallible"] "Infallible" false;
    Use 23 [] ["core"; "error"; "Error"] "Error" false;
    Use 24 [] ["core"; "fmt"] "fmt" false;
    Use 24 [] ["core"; "fmt"; "Debug"] "Debug" false;
    Use 24 [] ["core"; "fmt"; "Display"] "Display" false;
    Use 24 [] ["core"; "fmt"; "Formatter"] "Formatter" false;
    Item 31 [] "ItemDecodeError"]
  []
  [Mention 39 [] ["Display"];
    Mention 39 [] ["ItemDecodeError"];
    Mention 45 [] ["Formatter"];
    Mention 45 [] ["fmt"; "Result"];
    Mention 50 [] ["Error"];
    Mention 52 [] ["Debug"];
    Mention 56 [] ["Option"];
    Mention 57 [] ["Some"];
    Mention 61 [] ["From"];
    Mention 61 [] ["Infallible"]].

(* oct/src/error/item_encode_error.rs *)
Definition file_error_item_encode_error : file := File ["error"; "item_encode_error"]
  [Use 22 [] ["core"; "convert"; "Infallible"] "Infallible" false;
    Use 23 [] ["core"; "error"; "Error"] "Error" false;
    Use 24 [] ["core"; "fmt"] "fmt" false;
    Use 24 [] ["core"; "fmt"; "Debug"] "Debug" false;
    Use 24 [] ["core"; "fmt"; "Display"] "Display" false;
    Use 24 [] ["core"; "fmt"; "Formatter"] "Formatter" false;
    Item 31 [] "ItemEncodeError"]
  []
  [Mention 39 [] ["Display"];
    Mention 39 [] ["ItemEncodeError"];
    Mention 45 [] ["Formatter"];
    Mention 45 [] ["fmt"; "Result"];
    Mention 50 [] ["Error"];
    Mention 52 [] ["Debug"];
    Mention 56 [] ["Option"];
    Mention 57 [] ["Some"];
    Mention 61 [] ["Into"];
    Mention 61 [] ["From"];
    Mention 61 [] ["Infallible"]].

(* oct/src/error/length_error.rs *)
Definition file_error_length_error : file := File ["error"; "length_error"]
  [Use 22 [] ["core"; "error"; "Error"] "Error" false;
    Use 23 [] ["core"; "fmt"] "fmt" false;
    Use 23 [] ["core"; "fmt"; "Display"] "Display" false;
    Use 23 [] ["core"; "fmt"; "Formatter"] "Formatter" false;
    Item 35 [] "LengthError"]
  []
  [Mention 43 [] ["Display"];
    Mention 43 [] ["LengthError"];
    Mention 45 [] ["Formatter"];
    Mention 45 [] ["fmt"; "Result"];
    Mention 50 [] ["Error"]].

(* oct/src/error/non_zero_decode_error.rs *)
Definition file_error_non_zero_decode_error : file := File ["error"; "non_zero_decode_error"]
  [Use 22 [] ["core"; "error"; "Error"] "Error" false;
    Use 23 [] ["core"; "fmt"] "fmt" false;
    Use 23 [] ["core"; "fmt"; "Display"] "Display" false;
    Use 23 [] ["core"; "fmt"; "Formatter"] "Formatter" false;
    Item 29 [] "NonZeroDecodeError"]
  []
  [Mention 31 [] ["Display"];
    Mention 31 [] ["NonZeroDecodeError"];
    Mention 33 [] ["Formatter"];
    Mention 33 [] ["fmt"; "Result"];
    Mention 38 [] ["Error"]].

(* oct/src/error/output_error.rs *)
Definition file_error_output_error : file := File ["error"; "output_error"]
  [Use 22 [] ["core"; "error"; "Error"] "Error" false;
    Use 23 [] ["core"; "fmt"] "fmt" false;
    Use 23 [] ["core"; "fmt"; "Display"] "Display" false;
    Use 23 [] ["core"; "fmt"; "Formatter"] "Formatter" false;
    Item 30 [] "OutputError"]
  []
  [Mention 41 [] ["Display"];
    Mention 41 [] ["OutputError"];
    Mention 43 [] ["Formatter"];
    Mention 43 [] ["fmt"; "Result"];
    Mention 54 [] ["Error"]].

(* oct/src/error/ref_cell_encode_error.rs *)
Definition file_error_ref_cell_encode_error : file := File ["error"; "ref_cell_encode_error"]
  [Use 22 [] ["core"; "cell"; "BorrowError"] "BorrowError" false;
    Use 23 [] ["core"; "error"; "Error"] "Error" false;
    Use 24 [] ["core"; "fmt"] "fmt" false;
    Use 24 [] ["core"; "fmt"; "Display"] "Display" false;
    Use 24 [] ["core"; "fmt"; "Formatter"] "Formatter" false;
    Item 33 [] "RefCellEncodeError"]
  [Variant 35 [] "RefCellEncodeError" "BadBorrow";
    Variant 38 [] "RefCellEncodeError" "BadValue"]
  [Mention 35 [] ["BorrowError"];
    Mention 41 [] ["Display"];
    Mention 41 [] ["RefCellEncodeError"];
    Mention 43 [] ["Formatter"];
    Mention 43 [] ["fmt"; "Result"];
    Own 45 [] "RefCellEncodeError" "BadBorrow";
    Own 47 [] "RefCellEncodeError" "BadValue";
    Mention 54 [] ["Error"];
    Mention 56 [] ["Option"];
    Mention 58 [] ["Some"]].

(* oct/src/error/string_error.rs *)
Definition file_error_string_error : file := File ["error"; "string_error"]
  [Use 22 [] ["crate"; "error"; "LengthError"] "LengthError" false;
    Use 22 [] ["crate"; "error"; "Utf16Error"] "Utf16Error" false;
    Use 22 [] ["crate"; "error"; "Utf8Error"] "Utf8Error" false;
    Use 24 [] ["core"; "error"; "Error"] "Error" false;
    Use 25 [] ["core"; "fmt"] "fmt" false;
    Use 25 [] ["core"; "fmt"; "Display"] "Display" false;
    Use 25 [] ["core"; "fmt"; "Formatter"] "Formatter" false;
    Item 31 [] "StringError"]
  [Variant 33 [] "StringError" "BadUtf16";
    Variant 36 [] "StringError" "BadUtf8";
    Variant 39 [] "StringError" "SmallBuffer"]
  [Mention 33 [] ["Utf16Error"];
    Mention 36 [] ["Utf8Error"];
    Mention 39 [] ["LengthError"];
    Mention 42 [] ["Display"];
    Mention 42 [] ["StringError"];
    Mention 44 [] ["Formatter"];
    Mention 44 [] ["fmt"; "Result"];
    Own 46 [] "StringError" "BadUtf16";
    Own 49 [] "StringError" "BadUtf8";
    Own 52 [] "StringError" "SmallBuffer";
    Mention 58 [] ["Error"];
    Mention 60 [] ["Option"];
    Mention 62 [] ["Some"]].

(* oct/src/error/usize_encode_error.rs *)
Definition file_error_usize_encode_error : file := File ["error"; "usize_encode_error"]
  [Use 22 [] ["core"; "error"; "Error"] "Error" false;
    Use 23 [] ["core"; "fmt"] "fmt" false;
    Use 23 [] ["core"; "fmt"; "Display"] "Display" false;
    Use 23 [] ["core"; "fmt"; "Formatter"] "Formatter" false;
    Item 30 [] "UsizeEncodeError"]
  []
  [Mention 35 [] ["Display"];
    Mention 35 [] ["UsizeEncodeError"];
    Mention 37 [] ["Formatter"];
    Mention 37 [] ["fmt"; "Result"];
    Mention 42 [] ["u16"; "MAX"];
    Mention 47 [] ["Error"]].

(* oct/src/error/utf16_error.rs *)
Definition file_error_utf16_error : file := File ["error"; "utf16_error"]
  [Use 22 [] ["core"; "error"; "Error"] "Error" false;
    Use 23 [] ["core"; "fmt"] "fmt" false;
    Use 23 [] ["core"; "fmt"; "Display"] "Display" false;
    Use 23 [] ["core"; "fmt"; "Formatter"] "Formatter" false;
    Item 28 [] "Utf16Error"]
  []
  [Mention 36 [] ["Display"];
    Mention 36 [] ["Utf16Error"];
    Mention 38 [] ["Formatter"];
    Mention 38 [] ["fmt"; "Result"];
    Mention 43 [] ["Error"]].

(* oct/src/error/utf8_error.rs *)
Definition file_error_utf8_error : file := File ["error"; "utf8_error"]
  [Use 22 [] ["core"; "error"; "Error"] "Error" false;
    Use 23 [] ["core"; "fmt"] "fmt" false;
    Use 23 [] ["core"; "fmt"; "Display"] "Display" false;
    Use 23 [] ["core"; "fmt"; "Formatter"] "Formatter" false;
    Item 28 [] "Utf8Error"]
  []
  [Mention 36 [] ["Display"];
    Mention 36 [] ["Utf8Error"];
    Mention 38 [] ["Formatter"];
    Mention 38 [] ["fmt"; "Result"];
    Mention 43 [] ["Error"]].

(* oct/src/error/c_string_decode_error.rs *)
Definition file_error_c_string_decode_error : file := File ["error"; "c_string_decode_error"]
  [Use 22 [] ["core"; "error"; "Error"] "Error" false;
    Use 23 [] ["core"; "fmt"] "fmt" false;
    Use 23 [] ["core"; "fmt"; "Display"] "Display" false;
    Use 23 [] ["core"; "fmt"; "Formatter"] "Formatter" false;
    Item 34 [] "CStringDecodeError"]
  []
  [Mention 39 [] ["Display"];
    Mention 39 [] ["CStringDecodeError"];
    Mention 41 [] ["Formatter"];
    Mention 41 [] ["fmt"; "Result"];
    Mention 46 [] ["Error"]].

(* oct/src/error/system_time_decode_error.rs *)
Definition file_error_system_time_decode_error : file := File ["error"; "system_time_decode_error"]
  [Use 22 [] ["core"; "error"; "Error"] "Error" false;
    Use 23 [] ["core"; "fmt"] "fmt" false;
    Use 23 [] ["core"; "fmt"; "Display"] "Display" false;
    Use 23 [] ["core"; "fmt"; "Formatter"] "Formatter" false;
    Item 32 [] "SystemTimeDecodeError"]
  []
  [Mention 38 [] ["Display"];
    Mention 38 [] ["SystemTimeDecodeError"];
    Mention 40 [] ["Formatter"];
    Mention 40 [] ["fmt"; "Result"];
    Mention 46 [] ["Error"]].

(* the crates that can be named: `extern crate` of oct/src/lib.rs, and the dependencies of oct/Cargo.toml *)
Definition src_crate : krate := Krate
  [("core", []); ("alloc", [On "feature" "alloc"]); ("std", [On "feature" "std"]); ("oct_macros", [On "feature" "proc-macro"])]
  [file_lib; file_primitive_discriminant; file_primitive_discriminant_sealed; file_sized_iter; file_sized_slice; file_sized_slice_code; file_sized_slice_conv; file_sized_slice_cmp; file_sized_slice_iter; file_sized_str; file_sized_str_cmp; file_sized_str_code; file_sized_str_conv; file_slot; file_decode; file_decode_decode; file_decode_decode_borrowed; file_decode_input; file_encode; file_encode_encode; file_encode_output; file_encode_sized_encode; file_error; file_error_char_decode_error; file_error_collection_decode_error; file_error_collection_encode_error; file_error_enum_decode_error; file_error_enum_encode_error; file_error_generic_decode_error; file_error_generic_encode_error; file_error_input_error; file_error_isize_encode_error; file_error_item_decode_error; file_error_item_encode_error; file_error_length_error; file_error_non_zero_decode_error; file_error_output_error; file_error_ref_cell_encode_error; file_error_string_error; file_error_usize_encode_error; file_error_utf16_error; file_error_utf8_error; file_error_c_string_decode_error; file_error_system_time_decode_error].
