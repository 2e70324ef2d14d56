(* Generated by tools/rust2v.py from oct/src/encode/sized_encode/mod.rs, oct/src/sized_slice/code.rs, oct/src/sized_str/code.rs. Do not edit. *)
From Coq Require Import String.
From Verif Require Import Base SourceNames SourceSyntax.
Local Open Scope list_scope.

(* oct/src/encode/sized_encode/mod.rs:85 *)
Definition src_SizedEncode_ref : impl :=
  Impl [id_T] [] [((YPath [(id_T, [])]), [(id_SizedEncode, [])])] (Some [(id_SizedEncode, [])]) (YRef false (YPath [(id_T, [])]))
    [(id_MAX_ENCODED_SIZE, (EPath [(id_T, []); (id_MAX_ENCODED_SIZE, [])]))] [] [].

(* oct/src/encode/sized_encode/mod.rs:89 *)
Definition src_SizedEncode_ref_mut : impl :=
  Impl [id_T] [] [((YPath [(id_T, [])]), [(id_SizedEncode, [])])] (Some [(id_SizedEncode, [])]) (YRef true (YPath [(id_T, [])]))
    [(id_MAX_ENCODED_SIZE, (EPath [(id_T, []); (id_MAX_ENCODED_SIZE, [])]))] [] [].

(* oct/src/encode/sized_encode/mod.rs:95 *)
Definition src_SizedEncode_tuple1 : impl :=
  Impl [id_T] [] [((YPath [(id_T, [])]), [(id_SizedEncode, [])])] (Some [(id_SizedEncode, [])]) (YTup [(YPath [(id_T, [])])])
    [(id_MAX_ENCODED_SIZE, (EPath [(id_T, []); (id_MAX_ENCODED_SIZE, [])]))] [] [].

(* oct/src/encode/sized_encode/mod.rs:100 *)
Definition src_SizedEncode_array : impl :=
  Impl [id_T] [id_N] [((YPath [(id_T, [])]), [(id_SizedEncode, [])])] (Some [(id_SizedEncode, [])]) (YArr (YPath [(id_T, [])]) (YPath [(id_N, [])]))
    [(id_MAX_ENCODED_SIZE, (EBin OMul (EPath [(id_T, []); (id_MAX_ENCODED_SIZE, [])]) (EPath [(id_N, [])])))] [] [].

(* oct/src/encode/sized_encode/mod.rs:106 *)
Definition src_SizedEncode_Arc_T : impl :=
  Impl [id_T] [] [((YPath [(id_T, [])]), [(id_SizedEncode, [])])] (Some [(id_SizedEncode, [])]) (YPath [(id_Arc, [(YPath [(id_T, [])])])])
    [(id_MAX_ENCODED_SIZE, (EPath [(id_T, []); (id_MAX_ENCODED_SIZE, [])]))] [] [].

(* oct/src/encode/sized_encode/mod.rs:110 *)
Definition src_SizedEncode_bool : impl :=
  Impl [] [] [] (Some [(id_SizedEncode, [])]) (YPath [(id_bool, [])])
    [(id_MAX_ENCODED_SIZE, (EPath [(id_u8, []); (id_MAX_ENCODED_SIZE, [])]))] [] [].

(* oct/src/encode/sized_encode/mod.rs:114 *)
Definition src_SizedEncode_Bound_T : impl :=
  Impl [id_T] [] [((YPath [(id_T, [])]), [(id_SizedEncode, [])])] (Some [(id_SizedEncode, [])]) (YPath [(id_Bound, [(YPath [(id_T, [])])])])
    [(id_MAX_ENCODED_SIZE, (EBin OAdd (EPath [(id_u8, []); (id_MAX_ENCODED_SIZE, [])]) (EPath [(id_T, []); (id_MAX_ENCODED_SIZE, [])])))] [] [].

(* oct/src/encode/sized_encode/mod.rs:122 *)
Definition src_SizedEncode_Box_T : impl :=
  Impl [id_T] [] [((YPath [(id_T, [])]), [(id_SizedEncode, [])])] (Some [(id_SizedEncode, [])]) (YPath [(id_Box, [(YPath [(id_T, [])])])])
    [(id_MAX_ENCODED_SIZE, (EPath [(id_T, []); (id_MAX_ENCODED_SIZE, [])]))] [] [].

(* oct/src/encode/sized_encode/mod.rs:126 *)
Definition src_SizedEncode_Cell_T : impl :=
  Impl [id_T] [] [((YPath [(id_T, [])]), [(id_Copy, [])]); ((YPath [(id_T, [])]), [(id_SizedEncode, [])])] (Some [(id_SizedEncode, [])]) (YPath [(id_Cell, [(YPath [(id_T, [])])])])
    [(id_MAX_ENCODED_SIZE, (EPath [(id_T, []); (id_MAX_ENCODED_SIZE, [])]))] [] [].

(* oct/src/encode/sized_encode/mod.rs:130 *)
Definition src_SizedEncode_char : impl :=
  Impl [] [] [] (Some [(id_SizedEncode, [])]) (YPath [(id_char, [])])
    [(id_MAX_ENCODED_SIZE, (EPath [(id_u32, []); (id_MAX_ENCODED_SIZE, [])]))] [] [].

(* oct/src/encode/sized_encode/mod.rs:136 *)
Definition src_SizedEncode_Cow_T : impl :=
  Impl [id_T] [] [((YPath [(id_T, [])]), [(id_SizedEncode, [])]); ((YPath [(id_T, [])]), [(id_ToOwned, [])])] (Some [(id_SizedEncode, [])]) (YPath [(id_Cow, [(YPath [(id_T, [])])])])
    [(id_MAX_ENCODED_SIZE, (EPath [(id_T, []); (id_MAX_ENCODED_SIZE, [])]))] [] [].

(* oct/src/encode/sized_encode/mod.rs:140 *)
Definition src_SizedEncode_Duration : impl :=
  Impl [] [] [] (Some [(id_SizedEncode, [])]) (YPath [(id_Duration, [])])
    [(id_MAX_ENCODED_SIZE, (EBin OAdd (EPath [(id_u64, []); (id_MAX_ENCODED_SIZE, [])]) (EPath [(id_u32, []); (id_MAX_ENCODED_SIZE, [])])))] [] [].

(* oct/src/encode/sized_encode/mod.rs:146 *)
Definition src_SizedEncode_Infallible : impl :=
  Impl [] [] [] (Some [(id_SizedEncode, [])]) (YPath [(id_Infallible, [])])
    [(id_MAX_ENCODED_SIZE, (EInt (0)%Z None))] [] [].

(* oct/src/encode/sized_encode/mod.rs:150 *)
Definition src_SizedEncode_IpAddr : impl :=
  Impl [] [] [] (Some [(id_SizedEncode, [])]) (YPath [(id_IpAddr, [])])
    [(id_MAX_ENCODED_SIZE, (EBin OAdd (EPath [(id_u8, []); (id_MAX_ENCODED_SIZE, [])]) (EPath [(id_Ipv6Addr, []); (id_MAX_ENCODED_SIZE, [])])))] [] [].

(* oct/src/encode/sized_encode/mod.rs:156 *)
Definition src_SizedEncode_Ipv4Addr : impl :=
  Impl [] [] [] (Some [(id_SizedEncode, [])]) (YPath [(id_Ipv4Addr, [])])
    [(id_MAX_ENCODED_SIZE, (EPath [(id_u32, []); (id_MAX_ENCODED_SIZE, [])]))] [] [].

(* oct/src/encode/sized_encode/mod.rs:160 *)
Definition src_SizedEncode_Ipv6Addr : impl :=
  Impl [] [] [] (Some [(id_SizedEncode, [])]) (YPath [(id_Ipv6Addr, [])])
    [(id_MAX_ENCODED_SIZE, (EPath [(id_u128, []); (id_MAX_ENCODED_SIZE, [])]))] [] [].

(* oct/src/encode/sized_encode/mod.rs:164 *)
Definition src_SizedEncode_isize : impl :=
  Impl [] [] [] (Some [(id_SizedEncode, [])]) (YPath [(id_isize, [])])
    [(id_MAX_ENCODED_SIZE, (EPath [(id_i16, []); (id_MAX_ENCODED_SIZE, [])]))] [] [].

(* oct/src/encode/sized_encode/mod.rs:168 *)
Definition src_SizedEncode_LazyCell_T : impl :=
  Impl [id_T] [] [((YPath [(id_T, [])]), [(id_SizedEncode, [])])] (Some [(id_SizedEncode, [])]) (YPath [(id_LazyCell, [(YPath [(id_T, [])])])])
    [(id_MAX_ENCODED_SIZE, (EPath [(id_T, []); (id_MAX_ENCODED_SIZE, [])]))] [] [].

(* oct/src/encode/sized_encode/mod.rs:174 *)
Definition src_SizedEncode_LazyLock_T : impl :=
  Impl [id_T] [] [((YPath [(id_T, [])]), [(id_SizedEncode, [])])] (Some [(id_SizedEncode, [])]) (YPath [(id_LazyLock, [(YPath [(id_T, [])])])])
    [(id_MAX_ENCODED_SIZE, (EPath [(id_T, []); (id_MAX_ENCODED_SIZE, [])]))] [] [].

(* oct/src/encode/sized_encode/mod.rs:180 *)
Definition src_SizedEncode_Mutex_T : impl :=
  Impl [id_T] [] [((YPath [(id_T, [])]), [(id_SizedEncode, [])])] (Some [(id_SizedEncode, [])]) (YPath [(id_Mutex, [(YPath [(id_T, [])])])])
    [(id_MAX_ENCODED_SIZE, (EPath [(id_T, []); (id_MAX_ENCODED_SIZE, [])]))] [] [].

(* oct/src/encode/sized_encode/mod.rs:184 *)
Definition src_SizedEncode_Option_T : impl :=
  Impl [id_T] [] [((YPath [(id_T, [])]), [(id_SizedEncode, [])])] (Some [(id_SizedEncode, [])]) (YPath [(id_Option, [(YPath [(id_T, [])])])])
    [(id_MAX_ENCODED_SIZE, (EBin OAdd (EPath [(id_bool, []); (id_MAX_ENCODED_SIZE, [])]) (EPath [(id_T, []); (id_MAX_ENCODED_SIZE, [])])))] [] [].

(* oct/src/encode/sized_encode/mod.rs:190 *)
Definition src_SizedEncode_PhantomData_T : impl :=
  Impl [id_T] [] [] (Some [(id_SizedEncode, [])]) (YPath [(id_PhantomData, [(YPath [(id_T, [])])])])
    [(id_MAX_ENCODED_SIZE, (EInt (0)%Z None))] [] [].

(* oct/src/encode/sized_encode/mod.rs:194 *)
Definition src_SizedEncode_Range_T : impl :=
  Impl [id_T] [] [((YPath [(id_T, [])]), [(id_SizedEncode, [])])] (Some [(id_SizedEncode, [])]) (YPath [(id_Range, [(YPath [(id_T, [])])])])
    [(id_MAX_ENCODED_SIZE, (EBin OMul (EPath [(id_T, []); (id_MAX_ENCODED_SIZE, [])]) (EInt (2)%Z None)))] [] [].

(* oct/src/encode/sized_encode/mod.rs:198 *)
Definition src_SizedEncode_RangeFrom_T : impl :=
  Impl [id_T] [] [((YPath [(id_T, [])]), [(id_SizedEncode, [])])] (Some [(id_SizedEncode, [])]) (YPath [(id_RangeFrom, [(YPath [(id_T, [])])])])
    [(id_MAX_ENCODED_SIZE, (EPath [(id_T, []); (id_MAX_ENCODED_SIZE, [])]))] [] [].

(* oct/src/encode/sized_encode/mod.rs:202 *)
Definition src_SizedEncode_RangeFull : impl :=
  Impl [] [] [] (Some [(id_SizedEncode, [])]) (YPath [(id_RangeFull, [])])
    [(id_MAX_ENCODED_SIZE, (EInt (0)%Z None))] [] [].

(* oct/src/encode/sized_encode/mod.rs:206 *)
Definition src_SizedEncode_RangeInclusive_T : impl :=
  Impl [id_T] [] [((YPath [(id_T, [])]), [(id_SizedEncode, [])])] (Some [(id_SizedEncode, [])]) (YPath [(id_RangeInclusive, [(YPath [(id_T, [])])])])
    [(id_MAX_ENCODED_SIZE, (EBin OMul (EPath [(id_T, []); (id_MAX_ENCODED_SIZE, [])]) (EInt (2)%Z None)))] [] [].

(* oct/src/encode/sized_encode/mod.rs:210 *)
Definition src_SizedEncode_RangeTo_T : impl :=
  Impl [id_T] [] [((YPath [(id_T, [])]), [(id_SizedEncode, [])])] (Some [(id_SizedEncode, [])]) (YPath [(id_RangeTo, [(YPath [(id_T, [])])])])
    [(id_MAX_ENCODED_SIZE, (EPath [(id_T, []); (id_MAX_ENCODED_SIZE, [])]))] [] [].

(* oct/src/encode/sized_encode/mod.rs:214 *)
Definition src_SizedEncode_RangeToInclusive_T : impl :=
  Impl [id_T] [] [((YPath [(id_T, [])]), [(id_SizedEncode, [])])] (Some [(id_SizedEncode, [])]) (YPath [(id_RangeToInclusive, [(YPath [(id_T, [])])])])
    [(id_MAX_ENCODED_SIZE, (EPath [(id_T, []); (id_MAX_ENCODED_SIZE, [])]))] [] [].

(* oct/src/encode/sized_encode/mod.rs:220 *)
Definition src_SizedEncode_Rc_T : impl :=
  Impl [id_T] [] [((YPath [(id_T, [])]), [(id_SizedEncode, [])])] (Some [(id_SizedEncode, [])]) (YPath [(id_Rc, [(YPath [(id_T, [])])])])
    [(id_MAX_ENCODED_SIZE, (EPath [(id_T, []); (id_MAX_ENCODED_SIZE, [])]))] [] [].

(* oct/src/encode/sized_encode/mod.rs:224 *)
Definition src_SizedEncode_RefCell_T : impl :=
  Impl [id_T] [] [((YPath [(id_T, [])]), [(id_SizedEncode, [])])] (Some [(id_SizedEncode, [])]) (YPath [(id_RefCell, [(YPath [(id_T, [])])])])
    [(id_MAX_ENCODED_SIZE, (EPath [(id_T, []); (id_MAX_ENCODED_SIZE, [])]))] [] [].

(* oct/src/encode/sized_encode/mod.rs:228 *)
Definition src_SizedEncode_Result_T_E : impl :=
  Impl [id_T; id_E; id_Err] [] [((YPath [(id_T, [])]), [(id_SizedEncode, [])]); ((YPath [(id_T, [])]), [(id_Encode, [(YAssoc id_Error (YPath [(id_Err, [])]))])]); ((YPath [(id_E, [])]), [(id_SizedEncode, [])]); ((YPath [(id_E, [])]), [(id_Encode, [(YAssoc id_Error (YPath [(id_Err, [])]))])])] (Some [(id_SizedEncode, [])]) (YPath [(id_core, []); (id_result, []); (id_Result, [(YPath [(id_T, [])]); (YPath [(id_E, [])])])])
    [(id_MAX_ENCODED_SIZE, (EBin OAdd (EPath [(id_bool, []); (id_MAX_ENCODED_SIZE, [])]) (EIf (EBin OGt (ECall (EPath [(id_size_of, [(YPath [(id_T, [])])])]) []) (ECall (EPath [(id_size_of, [(YPath [(id_E, [])])])]) [])) (ECall (EPath [(id_size_of, [(YPath [(id_T, [])])])]) []) (ECall (EPath [(id_size_of, [(YPath [(id_E, [])])])]) []))))] [] [].

(* oct/src/encode/sized_encode/mod.rs:240 *)
Definition src_SizedEncode_RwLock_T : impl :=
  Impl [id_T] [] [((YPath [(id_T, [])]), [(id_SizedEncode, [])])] (Some [(id_SizedEncode, [])]) (YPath [(id_RwLock, [(YPath [(id_T, [])])])])
    [(id_MAX_ENCODED_SIZE, (EPath [(id_T, []); (id_MAX_ENCODED_SIZE, [])]))] [] [].

(* oct/src/encode/sized_encode/mod.rs:244 *)
Definition src_SizedEncode_Saturating_T : impl :=
  Impl [id_T] [] [((YPath [(id_T, [])]), [(id_SizedEncode, [])])] (Some [(id_SizedEncode, [])]) (YPath [(id_Saturating, [(YPath [(id_T, [])])])])
    [(id_MAX_ENCODED_SIZE, (EPath [(id_T, []); (id_MAX_ENCODED_SIZE, [])]))] [] [].

(* oct/src/encode/sized_encode/mod.rs:248 *)
Definition src_SizedEncode_SocketAddr : impl :=
  Impl [] [] [] (Some [(id_SizedEncode, [])]) (YPath [(id_SocketAddr, [])])
    [(id_MAX_ENCODED_SIZE, (EBin OAdd (EPath [(id_u8, []); (id_MAX_ENCODED_SIZE, [])]) (EPath [(id_SocketAddrV6, []); (id_MAX_ENCODED_SIZE, [])])))] [] [].

(* oct/src/encode/sized_encode/mod.rs:254 *)
Definition src_SizedEncode_SocketAddrV4 : impl :=
  Impl [] [] [] (Some [(id_SizedEncode, [])]) (YPath [(id_SocketAddrV4, [])])
    [(id_MAX_ENCODED_SIZE, (EBin OAdd (EPath [(id_Ipv4Addr, []); (id_MAX_ENCODED_SIZE, [])]) (EPath [(id_u16, []); (id_MAX_ENCODED_SIZE, [])])))] [] [].

(* oct/src/encode/sized_encode/mod.rs:261 *)
Definition src_SizedEncode_SocketAddrV6 : impl :=
  Impl [] [] [] (Some [(id_SizedEncode, [])]) (YPath [(id_SocketAddrV6, [])])
    [(id_MAX_ENCODED_SIZE, (EBin OAdd (EBin OAdd (EBin OAdd (EPath [(id_Ipv6Addr, []); (id_MAX_ENCODED_SIZE, [])]) (EPath [(id_u16, []); (id_MAX_ENCODED_SIZE, [])])) (EPath [(id_u32, []); (id_MAX_ENCODED_SIZE, [])])) (EPath [(id_u32, []); (id_MAX_ENCODED_SIZE, [])])))] [] [].

(* oct/src/encode/sized_encode/mod.rs:271 *)
Definition src_SizedEncode_SystemTime : impl :=
  Impl [] [] [] (Some [(id_SizedEncode, [])]) (YPath [(id_SystemTime, [])])
    [(id_MAX_ENCODED_SIZE, (EPath [(id_i64, []); (id_MAX_ENCODED_SIZE, [])]))] [] [].

(* oct/src/encode/sized_encode/mod.rs:275 *)
Definition src_SizedEncode_tuple0 : impl :=
  Impl [] [] [] (Some [(id_SizedEncode, [])]) (YTup [])
    [(id_MAX_ENCODED_SIZE, (EInt (0)%Z None))] [] [].

(* oct/src/encode/sized_encode/mod.rs:279 *)
Definition src_SizedEncode_usize : impl :=
  Impl [] [] [] (Some [(id_SizedEncode, [])]) (YPath [(id_usize, [])])
    [(id_MAX_ENCODED_SIZE, (EPath [(id_u16, []); (id_MAX_ENCODED_SIZE, [])]))] [] [].

(* oct/src/encode/sized_encode/mod.rs:283 *)
Definition src_SizedEncode_Wrapping_T : impl :=
  Impl [id_T] [] [((YPath [(id_T, [])]), [(id_SizedEncode, [])])] (Some [(id_SizedEncode, [])]) (YPath [(id_Wrapping, [(YPath [(id_T, [])])])])
    [(id_MAX_ENCODED_SIZE, (EPath [(id_T, []); (id_MAX_ENCODED_SIZE, [])]))] [] [].

(* oct/src/encode/sized_encode/mod.rs:289 *)
Definition src_SizedEncode_f32 : impl :=
  Impl [] [] [] (Some [(id_oct, []); (id_encode, []); (id_SizedEncode, [])]) (YPath [(id_f32, [])])
    [(id_MAX_ENCODED_SIZE, (ECall (EPath [(id_core, []); (id_mem, []); (id_size_of, [(YPath [(id_f32, [])])])]) []))] [] [].

(* oct/src/encode/sized_encode/mod.rs:289 *)
Definition src_SizedEncode_f64 : impl :=
  Impl [] [] [] (Some [(id_oct, []); (id_encode, []); (id_SizedEncode, [])]) (YPath [(id_f64, [])])
    [(id_MAX_ENCODED_SIZE, (ECall (EPath [(id_core, []); (id_mem, []); (id_size_of, [(YPath [(id_f64, [])])])]) []))] [] [].

(* oct/src/encode/sized_encode/mod.rs:289 *)
Definition src_SizedEncode_i128 : impl :=
  Impl [] [] [] (Some [(id_oct, []); (id_encode, []); (id_SizedEncode, [])]) (YPath [(id_i128, [])])
    [(id_MAX_ENCODED_SIZE, (ECall (EPath [(id_core, []); (id_mem, []); (id_size_of, [(YPath [(id_i128, [])])])]) []))] [] [].

(* oct/src/encode/sized_encode/mod.rs:289 *)
Definition src_SizedEncode_i16 : impl :=
  Impl [] [] [] (Some [(id_oct, []); (id_encode, []); (id_SizedEncode, [])]) (YPath [(id_i16, [])])
    [(id_MAX_ENCODED_SIZE, (ECall (EPath [(id_core, []); (id_mem, []); (id_size_of, [(YPath [(id_i16, [])])])]) []))] [] [].

(* oct/src/encode/sized_encode/mod.rs:289 *)
Definition src_SizedEncode_i32 : impl :=
  Impl [] [] [] (Some [(id_oct, []); (id_encode, []); (id_SizedEncode, [])]) (YPath [(id_i32, [])])
    [(id_MAX_ENCODED_SIZE, (ECall (EPath [(id_core, []); (id_mem, []); (id_size_of, [(YPath [(id_i32, [])])])]) []))] [] [].

(* oct/src/encode/sized_encode/mod.rs:289 *)
Definition src_SizedEncode_i64 : impl :=
  Impl [] [] [] (Some [(id_oct, []); (id_encode, []); (id_SizedEncode, [])]) (YPath [(id_i64, [])])
    [(id_MAX_ENCODED_SIZE, (ECall (EPath [(id_core, []); (id_mem, []); (id_size_of, [(YPath [(id_i64, [])])])]) []))] [] [].

(* oct/src/encode/sized_encode/mod.rs:289 *)
Definition src_SizedEncode_i8 : impl :=
  Impl [] [] [] (Some [(id_oct, []); (id_encode, []); (id_SizedEncode, [])]) (YPath [(id_i8, [])])
    [(id_MAX_ENCODED_SIZE, (ECall (EPath [(id_core, []); (id_mem, []); (id_size_of, [(YPath [(id_i8, [])])])]) []))] [] [].

(* oct/src/encode/sized_encode/mod.rs:289 *)
Definition src_SizedEncode_u128 : impl :=
  Impl [] [] [] (Some [(id_oct, []); (id_encode, []); (id_SizedEncode, [])]) (YPath [(id_u128, [])])
    [(id_MAX_ENCODED_SIZE, (ECall (EPath [(id_core, []); (id_mem, []); (id_size_of, [(YPath [(id_u128, [])])])]) []))] [] [].

(* oct/src/encode/sized_encode/mod.rs:289 *)
Definition src_SizedEncode_u16 : impl :=
  Impl [] [] [] (Some [(id_oct, []); (id_encode, []); (id_SizedEncode, [])]) (YPath [(id_u16, [])])
    [(id_MAX_ENCODED_SIZE, (ECall (EPath [(id_core, []); (id_mem, []); (id_size_of, [(YPath [(id_u16, [])])])]) []))] [] [].

(* oct/src/encode/sized_encode/mod.rs:289 *)
Definition src_SizedEncode_u32 : impl :=
  Impl [] [] [] (Some [(id_oct, []); (id_encode, []); (id_SizedEncode, [])]) (YPath [(id_u32, [])])
    [(id_MAX_ENCODED_SIZE, (ECall (EPath [(id_core, []); (id_mem, []); (id_size_of, [(YPath [(id_u32, [])])])]) []))] [] [].

(* oct/src/encode/sized_encode/mod.rs:289 *)
Definition src_SizedEncode_u64 : impl :=
  Impl [] [] [] (Some [(id_oct, []); (id_encode, []); (id_SizedEncode, [])]) (YPath [(id_u64, [])])
    [(id_MAX_ENCODED_SIZE, (ECall (EPath [(id_core, []); (id_mem, []); (id_size_of, [(YPath [(id_u64, [])])])]) []))] [] [].

(* oct/src/encode/sized_encode/mod.rs:289 *)
Definition src_SizedEncode_u8 : impl :=
  Impl [] [] [] (Some [(id_oct, []); (id_encode, []); (id_SizedEncode, [])]) (YPath [(id_u8, [])])
    [(id_MAX_ENCODED_SIZE, (ECall (EPath [(id_core, []); (id_mem, []); (id_size_of, [(YPath [(id_u8, [])])])]) []))] [] [].

(* oct/src/encode/sized_encode/mod.rs:300 *)
Definition src_SizedEncode_tuple2 : impl :=
  Impl [id_T0; id_T1; id_E] [] [((YPath [(id_T0, [])]), [(id_SizedEncode, [])]); ((YPath [(id_T0, [])]), [(id_Encode, [(YAssoc id_Error (YPath [(id_E, [])]))])]); ((YPath [(id_T1, [])]), [(id_SizedEncode, [])]); ((YPath [(id_T1, [])]), [(id_Encode, [(YAssoc id_Error (YPath [(id_E, [])]))])])] (Some [(id_oct, []); (id_encode, []); (id_SizedEncode, [])]) (YTup [(YPath [(id_T0, [])]); (YPath [(id_T1, [])])])
    [(id_MAX_ENCODED_SIZE, (EBin OAdd (EBin OAdd (EInt (0)%Z None) (EQual (YPath [(id_T0, [])]) [(id_oct, []); (id_encode, []); (id_SizedEncode, [])] [(id_MAX_ENCODED_SIZE, [])])) (EQual (YPath [(id_T1, [])]) [(id_oct, []); (id_encode, []); (id_SizedEncode, [])] [(id_MAX_ENCODED_SIZE, [])])))] [] [].

(* oct/src/encode/sized_encode/mod.rs:300 *)
Definition src_SizedEncode_tuple3 : impl :=
  Impl [id_T0; id_T1; id_T2; id_E] [] [((YPath [(id_T0, [])]), [(id_SizedEncode, [])]); ((YPath [(id_T0, [])]), [(id_Encode, [(YAssoc id_Error (YPath [(id_E, [])]))])]); ((YPath [(id_T1, [])]), [(id_SizedEncode, [])]); ((YPath [(id_T1, [])]), [(id_Encode, [(YAssoc id_Error (YPath [(id_E, [])]))])]); ((YPath [(id_T2, [])]), [(id_SizedEncode, [])]); ((YPath [(id_T2, [])]), [(id_Encode, [(YAssoc id_Error (YPath [(id_E, [])]))])])] (Some [(id_oct, []); (id_encode, []); (id_SizedEncode, [])]) (YTup [(YPath [(id_T0, [])]); (YPath [(id_T1, [])]); (YPath [(id_T2, [])])])
    [(id_MAX_ENCODED_SIZE, (EBin OAdd (EBin OAdd (EBin OAdd (EInt (0)%Z None) (EQual (YPath [(id_T0, [])]) [(id_oct, []); (id_encode, []); (id_SizedEncode, [])] [(id_MAX_ENCODED_SIZE, [])])) (EQual (YPath [(id_T1, [])]) [(id_oct, []); (id_encode, []); (id_SizedEncode, [])] [(id_MAX_ENCODED_SIZE, [])])) (EQual (YPath [(id_T2, [])]) [(id_oct, []); (id_encode, []); (id_SizedEncode, [])] [(id_MAX_ENCODED_SIZE, [])])))] [] [].

(* oct/src/encode/sized_encode/mod.rs:300 *)
Definition src_SizedEncode_tuple4 : impl :=
  Impl [id_T0; id_T1; id_T2; id_T3; id_E] [] [((YPath [(id_T0, [])]), [(id_SizedEncode, [])]); ((YPath [(id_T0, [])]), [(id_Encode, [(YAssoc id_Error (YPath [(id_E, [])]))])]); ((YPath [(id_T1, [])]), [(id_SizedEncode, [])]); ((YPath [(id_T1, [])]), [(id_Encode, [(YAssoc id_Error (YPath [(id_E, [])]))])]); ((YPath [(id_T2, [])]), [(id_SizedEncode, [])]); ((YPath [(id_T2, [])]), [(id_Encode, [(YAssoc id_Error (YPath [(id_E, [])]))])]); ((YPath [(id_T3, [])]), [(id_SizedEncode, [])]); ((YPath [(id_T3, [])]), [(id_Encode, [(YAssoc id_Error (YPath [(id_E, [])]))])])] (Some [(id_oct, []); (id_encode, []); (id_SizedEncode, [])]) (YTup [(YPath [(id_T0, [])]); (YPath [(id_T1, [])]); (YPath [(id_T2, [])]); (YPath [(id_T3, [])])])
    [(id_MAX_ENCODED_SIZE, (EBin OAdd (EBin OAdd (EBin OAdd (EBin OAdd (EInt (0)%Z None) (EQual (YPath [(id_T0, [])]) [(id_oct, []); (id_encode, []); (id_SizedEncode, [])] [(id_MAX_ENCODED_SIZE, [])])) (EQual (YPath [(id_T1, [])]) [(id_oct, []); (id_encode, []); (id_SizedEncode, [])] [(id_MAX_ENCODED_SIZE, [])])) (EQual (YPath [(id_T2, [])]) [(id_oct, []); (id_encode, []); (id_SizedEncode, [])] [(id_MAX_ENCODED_SIZE, [])])) (EQual (YPath [(id_T3, [])]) [(id_oct, []); (id_encode, []); (id_SizedEncode, [])] [(id_MAX_ENCODED_SIZE, [])])))] [] [].

(* oct/src/encode/sized_encode/mod.rs:300 *)
Definition src_SizedEncode_tuple5 : impl :=
  Impl [id_T0; id_T1; id_T2; id_T3; id_T4; id_E] [] [((YPath [(id_T0, [])]), [(id_SizedEncode, [])]); ((YPath [(id_T0, [])]), [(id_Encode, [(YAssoc id_Error (YPath [(id_E, [])]))])]); ((YPath [(id_T1, [])]), [(id_SizedEncode, [])]); ((YPath [(id_T1, [])]), [(id_Encode, [(YAssoc id_Error (YPath [(id_E, [])]))])]); ((YPath [(id_T2, [])]), [(id_SizedEncode, [])]); ((YPath [(id_T2, [])]), [(id_Encode, [(YAssoc id_Error (YPath [(id_E, [])]))])]); ((YPath [(id_T3, [])]), [(id_SizedEncode, [])]); ((YPath [(id_T3, [])]), [(id_Encode, [(YAssoc id_Error (YPath [(id_E, [])]))])]); ((YPath [(id_T4, [])]), [(id_SizedEncode, [])]); ((YPath [(id_T4, [])]), [(id_Encode, [(YAssoc id_Error (YPath [(id_E, [])]))])])] (Some [(id_oct, []); (id_encode, []); (id_SizedEncode, [])]) (YTup [(YPath [(id_T0, [])]); (YPath [(id_T1, [])]); (YPath [(id_T2, [])]); (YPath [(id_T3, [])]); (YPath [(id_T4, [])])])
    [(id_MAX_ENCODED_SIZE, (EBin OAdd (EBin OAdd (EBin OAdd (EBin OAdd (EBin OAdd (EInt (0)%Z None) (EQual (YPath [(id_T0, [])]) [(id_oct, []); (id_encode, []); (id_SizedEncode, [])] [(id_MAX_ENCODED_SIZE, [])])) (EQual (YPath [(id_T1, [])]) [(id_oct, []); (id_encode, []); (id_SizedEncode, [])] [(id_MAX_ENCODED_SIZE, [])])) (EQual (YPath [(id_T2, [])]) [(id_oct, []); (id_encode, []); (id_SizedEncode, [])] [(id_MAX_ENCODED_SIZE, [])])) (EQual (YPath [(id_T3, [])]) [(id_oct, []); (id_encode, []); (id_SizedEncode, [])] [(id_MAX_ENCODED_SIZE, [])])) (EQual (YPath [(id_T4, [])]) [(id_oct, []); (id_encode, []); (id_SizedEncode, [])] [(id_MAX_ENCODED_SIZE, [])])))] [] [].

(* oct/src/encode/sized_encode/mod.rs:300 *)
Definition src_SizedEncode_tuple6 : impl :=
  Impl [id_T0; id_T1; id_T2; id_T3; id_T4; id_T5; id_E] [] [((YPath [(id_T0, [])]), [(id_SizedEncode, [])]); ((YPath [(id_T0, [])]), [(id_Encode, [(YAssoc id_Error (YPath [(id_E, [])]))])]); ((YPath [(id_T1, [])]), [(id_SizedEncode, [])]); ((YPath [(id_T1, [])]), [(id_Encode, [(YAssoc id_Error (YPath [(id_E, [])]))])]); ((YPath [(id_T2, [])]), [(id_SizedEncode, [])]); ((YPath [(id_T2, [])]), [(id_Encode, [(YAssoc id_Error (YPath [(id_E, [])]))])]); ((YPath [(id_T3, [])]), [(id_SizedEncode, [])]); ((YPath [(id_T3, [])]), [(id_Encode, [(YAssoc id_Error (YPath [(id_E, [])]))])]); ((YPath [(id_T4, [])]), [(id_SizedEncode, [])]); ((YPath [(id_T4, [])]), [(id_Encode, [(YAssoc id_Error (YPath [(id_E, [])]))])]); ((YPath [(id_T5, [])]), [(id_SizedEncode, [])]); ((YPath [(id_T5, [])]), [(id_Encode, [(YAssoc id_Error (YPath [(id_E, [])]))])])] (Some [(id_oct, []); (id_encode, []); (id_SizedEncode, [])]) (YTup [(YPath [(id_T0, [])]); (YPath [(id_T1, [])]); (YPath [(id_T2, [])]); (YPath [(id_T3, [])]); (YPath [(id_T4, [])]); (YPath [(id_T5, [])])])
    [(id_MAX_ENCODED_SIZE, (EBin OAdd (EBin OAdd (EBin OAdd (EBin OAdd (EBin OAdd (EBin OAdd (EInt (0)%Z None) (EQual (YPath [(id_T0, [])]) [(id_oct, []); (id_encode, []); (id_SizedEncode, [])] [(id_MAX_ENCODED_SIZE, [])])) (EQual (YPath [(id_T1, [])]) [(id_oct, []); (id_encode, []); (id_SizedEncode, [])] [(id_MAX_ENCODED_SIZE, [])])) (EQual (YPath [(id_T2, [])]) [(id_oct, []); (id_encode, []); (id_SizedEncode, [])] [(id_MAX_ENCODED_SIZE, [])])) (EQual (YPath [(id_T3, [])]) [(id_oct, []); (id_encode, []); (id_SizedEncode, [])] [(id_MAX_ENCODED_SIZE, [])])) (EQual (YPath [(id_T4, [])]) [(id_oct, []); (id_encode, []); (id_SizedEncode, [])] [(id_MAX_ENCODED_SIZE, [])])) (EQual (YPath [(id_T5, [])]) [(id_oct, []); (id_encode, []); (id_SizedEncode, [])] [(id_MAX_ENCODED_SIZE, [])])))] [] [].

(* oct/src/encode/sized_encode/mod.rs:300 *)
Definition src_SizedEncode_tuple7 : impl :=
  Impl [id_T0; id_T1; id_T2; id_T3; id_T4; id_T5; id_T6; id_E] [] [((YPath [(id_T0, [])]), [(id_SizedEncode, [])]); ((YPath [(id_T0, [])]), [(id_Encode, [(YAssoc id_Error (YPath [(id_E, [])]))])]); ((YPath [(id_T1, [])]), [(id_SizedEncode, [])]); ((YPath [(id_T1, [])]), [(id_Encode, [(YAssoc id_Error (YPath [(id_E, [])]))])]); ((YPath [(id_T2, [])]), [(id_SizedEncode, [])]); ((YPath [(id_T2, [])]), [(id_Encode, [(YAssoc id_Error (YPath [(id_E, [])]))])]); ((YPath [(id_T3, [])]), [(id_SizedEncode, [])]); ((YPath [(id_T3, [])]), [(id_Encode, [(YAssoc id_Error (YPath [(id_E, [])]))])]); ((YPath [(id_T4, [])]), [(id_SizedEncode, [])]); ((YPath [(id_T4, [])]), [(id_Encode, [(YAssoc id_Error (YPath [(id_E, [])]))])]); ((YPath [(id_T5, [])]), [(id_SizedEncode, [])]); ((YPath [(id_T5, [])]), [(id_Encode, [(YAssoc id_Error (YPath [(id_E, [])]))])]); ((YPath [(id_T6, [])]), [(id_SizedEncode, [])]); ((YPath [(id_T6, [])]), [(id_Encode, [(YAssoc id_Error (YPath [(id_E, [])]))])])] (Some [(id_oct, []); (id_encode, []); (id_SizedEncode, [])]) (YTup [(YPath [(id_T0, [])]); (YPath [(id_T1, [])]); (YPath [(id_T2, [])]); (YPath [(id_T3, [])]); (YPath [(id_T4, [])]); (YPath [(id_T5, [])]); (YPath [(id_T6, [])])])
    [(id_MAX_ENCODED_SIZE, (EBin OAdd (EBin OAdd (EBin OAdd (EBin OAdd (EBin OAdd (EBin OAdd (EBin OAdd (EInt (0)%Z None) (EQual (YPath [(id_T0, [])]) [(id_oct, []); (id_encode, []); (id_SizedEncode, [])] [(id_MAX_ENCODED_SIZE, [])])) (EQual (YPath [(id_T1, [])]) [(id_oct, []); (id_encode, []); (id_SizedEncode, [])] [(id_MAX_ENCODED_SIZE, [])])) (EQual (YPath [(id_T2, [])]) [(id_oct, []); (id_encode, []); (id_SizedEncode, [])] [(id_MAX_ENCODED_SIZE, [])])) (EQual (YPath [(id_T3, [])]) [(id_oct, []); (id_encode, []); (id_SizedEncode, [])] [(id_MAX_ENCODED_SIZE, [])])) (EQual (YPath [(id_T4, [])]) [(id_oct, []); (id_encode, []); (id_SizedEncode, [])] [(id_MAX_ENCODED_SIZE, [])])) (EQual (YPath [(id_T5, [])]) [(id_oct, []); (id_encode, []); (id_SizedEncode, [])] [(id_MAX_ENCODED_SIZE, [])])) (EQual (YPath [(id_T6, [])]) [(id_oct, []); (id_encode, []); (id_SizedEncode, [])] [(id_MAX_ENCODED_SIZE, [])])))] [] [].

(* oct/src/encode/sized_encode/mod.rs:300 *)
Definition src_SizedEncode_tuple8 : impl :=
  Impl [id_T0; id_T1; id_T2; id_T3; id_T4; id_T5; id_T6; id_T7; id_E] [] [((YPath [(id_T0, [])]), [(id_SizedEncode, [])]); ((YPath [(id_T0, [])]), [(id_Encode, [(YAssoc id_Error (YPath [(id_E, [])]))])]); ((YPath [(id_T1, [])]), [(id_SizedEncode, [])]); ((YPath [(id_T1, [])]), [(id_Encode, [(YAssoc id_Error (YPath [(id_E, [])]))])]); ((YPath [(id_T2, [])]), [(id_SizedEncode, [])]); ((YPath [(id_T2, [])]), [(id_Encode, [(YAssoc id_Error (YPath [(id_E, [])]))])]); ((YPath [(id_T3, [])]), [(id_SizedEncode, [])]); ((YPath [(id_T3, [])]), [(id_Encode, [(YAssoc id_Error (YPath [(id_E, [])]))])]); ((YPath [(id_T4, [])]), [(id_SizedEncode, [])]); ((YPath [(id_T4, [])]), [(id_Encode, [(YAssoc id_Error (YPath [(id_E, [])]))])]); ((YPath [(id_T5, [])]), [(id_SizedEncode, [])]); ((YPath [(id_T5, [])]), [(id_Encode, [(YAssoc id_Error (YPath [(id_E, [])]))])]); ((YPath [(id_T6, [])]), [(id_SizedEncode, [])]); ((YPath [(id_T6, [])]), [(id_Encode, [(YAssoc id_Error (YPath [(id_E, [])]))])]); ((YPath [(id_T7, [])]), [(id_SizedEncode, [])]); ((YPath [(id_T7, [])]), [(id_Encode, [(YAssoc id_Error (YPath [(id_E, [])]))])])] (Some [(id_oct, []); (id_encode, []); (id_SizedEncode, [])]) (YTup [(YPath [(id_T0, [])]); (YPath [(id_T1, [])]); (YPath [(id_T2, [])]); (YPath [(id_T3, [])]); (YPath [(id_T4, [])]); (YPath [(id_T5, [])]); (YPath [(id_T6, [])]); (YPath [(id_T7, [])])])
    [(id_MAX_ENCODED_SIZE, (EBin OAdd (EBin OAdd (EBin OAdd (EBin OAdd (EBin OAdd (EBin OAdd (EBin OAdd (EBin OAdd (EInt (0)%Z None) (EQual (YPath [(id_T0, [])]) [(id_oct, []); (id_encode, []); (id_SizedEncode, [])] [(id_MAX_ENCODED_SIZE, [])])) (EQual (YPath [(id_T1, [])]) [(id_oct, []); (id_encode, []); (id_SizedEncode, [])] [(id_MAX_ENCODED_SIZE, [])])) (EQual (YPath [(id_T2, [])]) [(id_oct, []); (id_encode, []); (id_SizedEncode, [])] [(id_MAX_ENCODED_SIZE, [])])) (EQual (YPath [(id_T3, [])]) [(id_oct, []); (id_encode, []); (id_SizedEncode, [])] [(id_MAX_ENCODED_SIZE, [])])) (EQual (YPath [(id_T4, [])]) [(id_oct, []); (id_encode, []); (id_SizedEncode, [])] [(id_MAX_ENCODED_SIZE, [])])) (EQual (YPath [(id_T5, [])]) [(id_oct, []); (id_encode, []); (id_SizedEncode, [])] [(id_MAX_ENCODED_SIZE, [])])) (EQual (YPath [(id_T6, [])]) [(id_oct, []); (id_encode, []); (id_SizedEncode, [])] [(id_MAX_ENCODED_SIZE, [])])) (EQual (YPath [(id_T7, [])]) [(id_oct, []); (id_encode, []); (id_SizedEncode, [])] [(id_MAX_ENCODED_SIZE, [])])))] [] [].

(* oct/src/encode/sized_encode/mod.rs:300 *)
Definition src_SizedEncode_tuple9 : impl :=
  Impl [id_T0; id_T1; id_T2; id_T3; id_T4; id_T5; id_T6; id_T7; id_T8; id_E] [] [((YPath [(id_T0, [])]), [(id_SizedEncode, [])]); ((YPath [(id_T0, [])]), [(id_Encode, [(YAssoc id_Error (YPath [(id_E, [])]))])]); ((YPath [(id_T1, [])]), [(id_SizedEncode, [])]); ((YPath [(id_T1, [])]), [(id_Encode, [(YAssoc id_Error (YPath [(id_E, [])]))])]); ((YPath [(id_T2, [])]), [(id_SizedEncode, [])]); ((YPath [(id_T2, [])]), [(id_Encode, [(YAssoc id_Error (YPath [(id_E, [])]))])]); ((YPath [(id_T3, [])]), [(id_SizedEncode, [])]); ((YPath [(id_T3, [])]), [(id_Encode, [(YAssoc id_Error (YPath [(id_E, [])]))])]); ((YPath [(id_T4, [])]), [(id_SizedEncode, [])]); ((YPath [(id_T4, [])]), [(id_Encode, [(YAssoc id_Error (YPath [(id_E, [])]))])]); ((YPath [(id_T5, [])]), [(id_SizedEncode, [])]); ((YPath [(id_T5, [])]), [(id_Encode, [(YAssoc id_Error (YPath [(id_E, [])]))])]); ((YPath [(id_T6, [])]), [(id_SizedEncode, [])]); ((YPath [(id_T6, [])]), [(id_Encode, [(YAssoc id_Error (YPath [(id_E, [])]))])]); ((YPath [(id_T7, [])]), [(id_SizedEncode, [])]); ((YPath [(id_T7, [])]), [(id_Encode, [(YAssoc id_Error (YPath [(id_E, [])]))])]); ((YPath [(id_T8, [])]), [(id_SizedEncode, [])]); ((YPath [(id_T8, [])]), [(id_Encode, [(YAssoc id_Error (YPath [(id_E, [])]))])])] (Some [(id_oct, []); (id_encode, []); (id_SizedEncode, [])]) (YTup [(YPath [(id_T0, [])]); (YPath [(id_T1, [])]); (YPath [(id_T2, [])]); (YPath [(id_T3, [])]); (YPath [(id_T4, [])]); (YPath [(id_T5, [])]); (YPath [(id_T6, [])]); (YPath [(id_T7, [])]); (YPath [(id_T8, [])])])
    [(id_MAX_ENCODED_SIZE, (EBin OAdd (EBin OAdd (EBin OAdd (EBin OAdd (EBin OAdd (EBin OAdd (EBin OAdd (EBin OAdd (EBin OAdd (EInt (0)%Z None) (EQual (YPath [(id_T0, [])]) [(id_oct, []); (id_encode, []); (id_SizedEncode, [])] [(id_MAX_ENCODED_SIZE, [])])) (EQual (YPath [(id_T1, [])]) [(id_oct, []); (id_encode, []); (id_SizedEncode, [])] [(id_MAX_ENCODED_SIZE, [])])) (EQual (YPath [(id_T2, [])]) [(id_oct, []); (id_encode, []); (id_SizedEncode, [])] [(id_MAX_ENCODED_SIZE, [])])) (EQual (YPath [(id_T3, [])]) [(id_oct, []); (id_encode, []); (id_SizedEncode, [])] [(id_MAX_ENCODED_SIZE, [])])) (EQual (YPath [(id_T4, [])]) [(id_oct, []); (id_encode, []); (id_SizedEncode, [])] [(id_MAX_ENCODED_SIZE, [])])) (EQual (YPath [(id_T5, [])]) [(id_oct, []); (id_encode, []); (id_SizedEncode, [])] [(id_MAX_ENCODED_SIZE, [])])) (EQual (YPath [(id_T6, [])]) [(id_oct, []); (id_encode, []); (id_SizedEncode, [])] [(id_MAX_ENCODED_SIZE, [])])) (EQual (YPath [(id_T7, [])]) [(id_oct, []); (id_encode, []); (id_SizedEncode, [])] [(id_MAX_ENCODED_SIZE, [])])) (EQual (YPath [(id_T8, [])]) [(id_oct, []); (id_encode, []); (id_SizedEncode, [])] [(id_MAX_ENCODED_SIZE, [])])))] [] [].

(* oct/src/encode/sized_encode/mod.rs:300 *)
Definition src_SizedEncode_tuple10 : impl :=
  Impl [id_T0; id_T1; id_T2; id_T3; id_T4; id_T5; id_T6; id_T7; id_T8; id_T9; id_E] [] [((YPath [(id_T0, [])]), [(id_SizedEncode, [])]); ((YPath [(id_T0, [])]), [(id_Encode, [(YAssoc id_Error (YPath [(id_E, [])]))])]); ((YPath [(id_T1, [])]), [(id_SizedEncode, [])]); ((YPath [(id_T1, [])]), [(id_Encode, [(YAssoc id_Error (YPath [(id_E, [])]))])]); ((YPath [(id_T2, [])]), [(id_SizedEncode, [])]); ((YPath [(id_T2, [])]), [(id_Encode, [(YAssoc id_Error (YPath [(id_E, [])]))])]); ((YPath [(id_T3, [])]), [(id_SizedEncode, [])]); ((YPath [(id_T3, [])]), [(id_Encode, [(YAssoc id_Error (YPath [(id_E, [])]))])]); ((YPath [(id_T4, [])]), [(id_SizedEncode, [])]); ((YPath [(id_T4, [])]), [(id_Encode, [(YAssoc id_Error (YPath [(id_E, [])]))])]); ((YPath [(id_T5, [])]), [(id_SizedEncode, [])]); ((YPath [(id_T5, [])]), [(id_Encode, [(YAssoc id_Error (YPath [(id_E, [])]))])]); ((YPath [(id_T6, [])]), [(id_SizedEncode, [])]); ((YPath [(id_T6, [])]), [(id_Encode, [(YAssoc id_Error (YPath [(id_E, [])]))])]); ((YPath [(id_T7, [])]), [(id_SizedEncode, [])]); ((YPath [(id_T7, [])]), [(id_Encode, [(YAssoc id_Error (YPath [(id_E, [])]))])]); ((YPath [(id_T8, [])]), [(id_SizedEncode, [])]); ((YPath [(id_T8, [])]), [(id_Encode, [(YAssoc id_Error (YPath [(id_E, [])]))])]); ((YPath [(id_T9, [])]), [(id_SizedEncode, [])]); ((YPath [(id_T9, [])]), [(id_Encode, [(YAssoc id_Error (YPath [(id_E, [])]))])])] (Some [(id_oct, []); (id_encode, []); (id_SizedEncode, [])]) (YTup [(YPath [(id_T0, [])]); (YPath [(id_T1, [])]); (YPath [(id_T2, [])]); (YPath [(id_T3, [])]); (YPath [(id_T4, [])]); (YPath [(id_T5, [])]); (YPath [(id_T6, [])]); (YPath [(id_T7, [])]); (YPath [(id_T8, [])]); (YPath [(id_T9, [])])])
    [(id_MAX_ENCODED_SIZE, (EBin OAdd (EBin OAdd (EBin OAdd (EBin OAdd (EBin OAdd (EBin OAdd (EBin OAdd (EBin OAdd (EBin OAdd (EBin OAdd (EInt (0)%Z None) (EQual (YPath [(id_T0, [])]) [(id_oct, []); (id_encode, []); (id_SizedEncode, [])] [(id_MAX_ENCODED_SIZE, [])])) (EQual (YPath [(id_T1, [])]) [(id_oct, []); (id_encode, []); (id_SizedEncode, [])] [(id_MAX_ENCODED_SIZE, [])])) (EQual (YPath [(id_T2, [])]) [(id_oct, []); (id_encode, []); (id_SizedEncode, [])] [(id_MAX_ENCODED_SIZE, [])])) (EQual (YPath [(id_T3, [])]) [(id_oct, []); (id_encode, []); (id_SizedEncode, [])] [(id_MAX_ENCODED_SIZE, [])])) (EQual (YPath [(id_T4, [])]) [(id_oct, []); (id_encode, []); (id_SizedEncode, [])] [(id_MAX_ENCODED_SIZE, [])])) (EQual (YPath [(id_T5, [])]) [(id_oct, []); (id_encode, []); (id_SizedEncode, [])] [(id_MAX_ENCODED_SIZE, [])])) (EQual (YPath [(id_T6, [])]) [(id_oct, []); (id_encode, []); (id_SizedEncode, [])] [(id_MAX_ENCODED_SIZE, [])])) (EQual (YPath [(id_T7, [])]) [(id_oct, []); (id_encode, []); (id_SizedEncode, [])] [(id_MAX_ENCODED_SIZE, [])])) (EQual (YPath [(id_T8, [])]) [(id_oct, []); (id_encode, []); (id_SizedEncode, [])] [(id_MAX_ENCODED_SIZE, [])])) (EQual (YPath [(id_T9, [])]) [(id_oct, []); (id_encode, []); (id_SizedEncode, [])] [(id_MAX_ENCODED_SIZE, [])])))] [] [].

(* oct/src/encode/sized_encode/mod.rs:300 *)
Definition src_SizedEncode_tuple11 : impl :=
  Impl [id_T0; id_T1; id_T2; id_T3; id_T4; id_T5; id_T6; id_T7; id_T8; id_T9; id_T10; id_E] [] [((YPath [(id_T0, [])]), [(id_SizedEncode, [])]); ((YPath [(id_T0, [])]), [(id_Encode, [(YAssoc id_Error (YPath [(id_E, [])]))])]); ((YPath [(id_T1, [])]), [(id_SizedEncode, [])]); ((YPath [(id_T1, [])]), [(id_Encode, [(YAssoc id_Error (YPath [(id_E, [])]))])]); ((YPath [(id_T2, [])]), [(id_SizedEncode, [])]); ((YPath [(id_T2, [])]), [(id_Encode, [(YAssoc id_Error (YPath [(id_E, [])]))])]); ((YPath [(id_T3, [])]), [(id_SizedEncode, [])]); ((YPath [(id_T3, [])]), [(id_Encode, [(YAssoc id_Error (YPath [(id_E, [])]))])]); ((YPath [(id_T4, [])]), [(id_SizedEncode, [])]); ((YPath [(id_T4, [])]), [(id_Encode, [(YAssoc id_Error (YPath [(id_E, [])]))])]); ((YPath [(id_T5, [])]), [(id_SizedEncode, [])]); ((YPath [(id_T5, [])]), [(id_Encode, [(YAssoc id_Error (YPath [(id_E, [])]))])]); ((YPath [(id_T6, [])]), [(id_SizedEncode, [])]); ((YPath [(id_T6, [])]), [(id_Encode, [(YAssoc id_Error (YPath [(id_E, [])]))])]); ((YPath [(id_T7, [])]), [(id_SizedEncode, [])]); ((YPath [(id_T7, [])]), [(id_Encode, [(YAssoc id_Error (YPath [(id_E, [])]))])]); ((YPath [(id_T8, [])]), [(id_SizedEncode, [])]); ((YPath [(id_T8, [])]), [(id_Encode, [(YAssoc id_Error (YPath [(id_E, [])]))])]); ((YPath [(id_T9, [])]), [(id_SizedEncode, [])]); ((YPath [(id_T9, [])]), [(id_Encode, [(YAssoc id_Error (YPath [(id_E, [])]))])]); ((YPath [(id_T10, [])]), [(id_SizedEncode, [])]); ((YPath [(id_T10, [])]), [(id_Encode, [(YAssoc id_Error (YPath [(id_E, [])]))])])] (Some [(id_oct, []); (id_encode, []); (id_SizedEncode, [])]) (YTup [(YPath [(id_T0, [])]); (YPath [(id_T1, [])]); (YPath [(id_T2, [])]); (YPath [(id_T3, [])]); (YPath [(id_T4, [])]); (YPath [(id_T5, [])]); (YPath [(id_T6, [])]); (YPath [(id_T7, [])]); (YPath [(id_T8, [])]); (YPath [(id_T9, [])]); (YPath [(id_T10, [])])])
    [(id_MAX_ENCODED_SIZE, (EBin OAdd (EBin OAdd (EBin OAdd (EBin OAdd (EBin OAdd (EBin OAdd (EBin OAdd (EBin OAdd (EBin OAdd (EBin OAdd (EBin OAdd (EInt (0)%Z None) (EQual (YPath [(id_T0, [])]) [(id_oct, []); (id_encode, []); (id_SizedEncode, [])] [(id_MAX_ENCODED_SIZE, [])])) (EQual (YPath [(id_T1, [])]) [(id_oct, []); (id_encode, []); (id_SizedEncode, [])] [(id_MAX_ENCODED_SIZE, [])])) (EQual (YPath [(id_T2, [])]) [(id_oct, []); (id_encode, []); (id_SizedEncode, [])] [(id_MAX_ENCODED_SIZE, [])])) (EQual (YPath [(id_T3, [])]) [(id_oct, []); (id_encode, []); (id_SizedEncode, [])] [(id_MAX_ENCODED_SIZE, [])])) (EQual (YPath [(id_T4, [])]) [(id_oct, []); (id_encode, []); (id_SizedEncode, [])] [(id_MAX_ENCODED_SIZE, [])])) (EQual (YPath [(id_T5, [])]) [(id_oct, []); (id_encode, []); (id_SizedEncode, [])] [(id_MAX_ENCODED_SIZE, [])])) (EQual (YPath [(id_T6, [])]) [(id_oct, []); (id_encode, []); (id_SizedEncode, [])] [(id_MAX_ENCODED_SIZE, [])])) (EQual (YPath [(id_T7, [])]) [(id_oct, []); (id_encode, []); (id_SizedEncode, [])] [(id_MAX_ENCODED_SIZE, [])])) (EQual (YPath [(id_T8, [])]) [(id_oct, []); (id_encode, []); (id_SizedEncode, [])] [(id_MAX_ENCODED_SIZE, [])])) (EQual (YPath [(id_T9, [])]) [(id_oct, []); (id_encode, []); (id_SizedEncode, [])] [(id_MAX_ENCODED_SIZE, [])])) (EQual (YPath [(id_T10, [])]) [(id_oct, []); (id_encode, []); (id_SizedEncode, [])] [(id_MAX_ENCODED_SIZE, [])])))] [] [].

(* oct/src/encode/sized_encode/mod.rs:300 *)
Definition src_SizedEncode_tuple12 : impl :=
  Impl [id_T0; id_T1; id_T2; id_T3; id_T4; id_T5; id_T6; id_T7; id_T8; id_T9; id_T10; id_T11; id_E] [] [((YPath [(id_T0, [])]), [(id_SizedEncode, [])]); ((YPath [(id_T0, [])]), [(id_Encode, [(YAssoc id_Error (YPath [(id_E, [])]))])]); ((YPath [(id_T1, [])]), [(id_SizedEncode, [])]); ((YPath [(id_T1, [])]), [(id_Encode, [(YAssoc id_Error (YPath [(id_E, [])]))])]); ((YPath [(id_T2, [])]), [(id_SizedEncode, [])]); ((YPath [(id_T2, [])]), [(id_Encode, [(YAssoc id_Error (YPath [(id_E, [])]))])]); ((YPath [(id_T3, [])]), [(id_SizedEncode, [])]); ((YPath [(id_T3, [])]), [(id_Encode, [(YAssoc id_Error (YPath [(id_E, [])]))])]); ((YPath [(id_T4, [])]), [(id_SizedEncode, [])]); ((YPath [(id_T4, [])]), [(id_Encode, [(YAssoc id_Error (YPath [(id_E, [])]))])]); ((YPath [(id_T5, [])]), [(id_SizedEncode, [])]); ((YPath [(id_T5, [])]), [(id_Encode, [(YAssoc id_Error (YPath [(id_E, [])]))])]); ((YPath [(id_T6, [])]), [(id_SizedEncode, [])]); ((YPath [(id_T6, [])]), [(id_Encode, [(YAssoc id_Error (YPath [(id_E, [])]))])]); ((YPath [(id_T7, [])]), [(id_SizedEncode, [])]); ((YPath [(id_T7, [])]), [(id_Encode, [(YAssoc id_Error (YPath [(id_E, [])]))])]); ((YPath [(id_T8, [])]), [(id_SizedEncode, [])]); ((YPath [(id_T8, [])]), [(id_Encode, [(YAssoc id_Error (YPath [(id_E, [])]))])]); ((YPath [(id_T9, [])]), [(id_SizedEncode, [])]); ((YPath [(id_T9, [])]), [(id_Encode, [(YAssoc id_Error (YPath [(id_E, [])]))])]); ((YPath [(id_T10, [])]), [(id_SizedEncode, [])]); ((YPath [(id_T10, [])]), [(id_Encode, [(YAssoc id_Error (YPath [(id_E, [])]))])]); ((YPath [(id_T11, [])]), [(id_SizedEncode, [])]); ((YPath [(id_T11, [])]), [(id_Encode, [(YAssoc id_Error (YPath [(id_E, [])]))])])] (Some [(id_oct, []); (id_encode, []); (id_SizedEncode, [])]) (YTup [(YPath [(id_T0, [])]); (YPath [(id_T1, [])]); (YPath [(id_T2, [])]); (YPath [(id_T3, [])]); (YPath [(id_T4, [])]); (YPath [(id_T5, [])]); (YPath [(id_T6, [])]); (YPath [(id_T7, [])]); (YPath [(id_T8, [])]); (YPath [(id_T9, [])]); (YPath [(id_T10, [])]); (YPath [(id_T11, [])])])
    [(id_MAX_ENCODED_SIZE, (EBin OAdd (EBin OAdd (EBin OAdd (EBin OAdd (EBin OAdd (EBin OAdd (EBin OAdd (EBin OAdd (EBin OAdd (EBin OAdd (EBin OAdd (EBin OAdd (EInt (0)%Z None) (EQual (YPath [(id_T0, [])]) [(id_oct, []); (id_encode, []); (id_SizedEncode, [])] [(id_MAX_ENCODED_SIZE, [])])) (EQual (YPath [(id_T1, [])]) [(id_oct, []); (id_encode, []); (id_SizedEncode, [])] [(id_MAX_ENCODED_SIZE, [])])) (EQual (YPath [(id_T2, [])]) [(id_oct, []); (id_encode, []); (id_SizedEncode, [])] [(id_MAX_ENCODED_SIZE, [])])) (EQual (YPath [(id_T3, [])]) [(id_oct, []); (id_encode, []); (id_SizedEncode, [])] [(id_MAX_ENCODED_SIZE, [])])) (EQual (YPath [(id_T4, [])]) [(id_oct, []); (id_encode, []); (id_SizedEncode, [])] [(id_MAX_ENCODED_SIZE, [])])) (EQual (YPath [(id_T5, [])]) [(id_oct, []); (id_encode, []); (id_SizedEncode, [])] [(id_MAX_ENCODED_SIZE, [])])) (EQual (YPath [(id_T6, [])]) [(id_oct, []); (id_encode, []); (id_SizedEncode, [])] [(id_MAX_ENCODED_SIZE, [])])) (EQual (YPath [(id_T7, [])]) [(id_oct, []); (id_encode, []); (id_SizedEncode, [])] [(id_MAX_ENCODED_SIZE, [])])) (EQual (YPath [(id_T8, [])]) [(id_oct, []); (id_encode, []); (id_SizedEncode, [])] [(id_MAX_ENCODED_SIZE, [])])) (EQual (YPath [(id_T9, [])]) [(id_oct, []); (id_encode, []); (id_SizedEncode, [])] [(id_MAX_ENCODED_SIZE, [])])) (EQual (YPath [(id_T10, [])]) [(id_oct, []); (id_encode, []); (id_SizedEncode, [])] [(id_MAX_ENCODED_SIZE, [])])) (EQual (YPath [(id_T11, [])]) [(id_oct, []); (id_encode, []); (id_SizedEncode, [])] [(id_MAX_ENCODED_SIZE, [])])))] [] [].

(* oct/src/encode/sized_encode/mod.rs:310 *)
Definition src_SizedEncode_NonZero_i128 : impl :=
  Impl [] [] [] (Some [(id_oct, []); (id_encode, []); (id_SizedEncode, [])]) (YPath [(id_core, []); (id_num, []); (id_NonZero, [(YPath [(id_i128, [])])])])
    [(id_MAX_ENCODED_SIZE, (EQual (YPath [(id_i128, [])]) [(id_oct, []); (id_encode, []); (id_SizedEncode, [])] [(id_MAX_ENCODED_SIZE, [])]))] [] [].

(* oct/src/encode/sized_encode/mod.rs:310 *)
Definition src_SizedEncode_NonZero_i16 : impl :=
  Impl [] [] [] (Some [(id_oct, []); (id_encode, []); (id_SizedEncode, [])]) (YPath [(id_core, []); (id_num, []); (id_NonZero, [(YPath [(id_i16, [])])])])
    [(id_MAX_ENCODED_SIZE, (EQual (YPath [(id_i16, [])]) [(id_oct, []); (id_encode, []); (id_SizedEncode, [])] [(id_MAX_ENCODED_SIZE, [])]))] [] [].

(* oct/src/encode/sized_encode/mod.rs:310 *)
Definition src_SizedEncode_NonZero_i32 : impl :=
  Impl [] [] [] (Some [(id_oct, []); (id_encode, []); (id_SizedEncode, [])]) (YPath [(id_core, []); (id_num, []); (id_NonZero, [(YPath [(id_i32, [])])])])
    [(id_MAX_ENCODED_SIZE, (EQual (YPath [(id_i32, [])]) [(id_oct, []); (id_encode, []); (id_SizedEncode, [])] [(id_MAX_ENCODED_SIZE, [])]))] [] [].

(* oct/src/encode/sized_encode/mod.rs:310 *)
Definition src_SizedEncode_NonZero_i64 : impl :=
  Impl [] [] [] (Some [(id_oct, []); (id_encode, []); (id_SizedEncode, [])]) (YPath [(id_core, []); (id_num, []); (id_NonZero, [(YPath [(id_i64, [])])])])
    [(id_MAX_ENCODED_SIZE, (EQual (YPath [(id_i64, [])]) [(id_oct, []); (id_encode, []); (id_SizedEncode, [])] [(id_MAX_ENCODED_SIZE, [])]))] [] [].

(* oct/src/encode/sized_encode/mod.rs:310 *)
Definition src_SizedEncode_NonZero_i8 : impl :=
  Impl [] [] [] (Some [(id_oct, []); (id_encode, []); (id_SizedEncode, [])]) (YPath [(id_core, []); (id_num, []); (id_NonZero, [(YPath [(id_i8, [])])])])
    [(id_MAX_ENCODED_SIZE, (EQual (YPath [(id_i8, [])]) [(id_oct, []); (id_encode, []); (id_SizedEncode, [])] [(id_MAX_ENCODED_SIZE, [])]))] [] [].

(* oct/src/encode/sized_encode/mod.rs:310 *)
Definition src_SizedEncode_NonZero_isize : impl :=
  Impl [] [] [] (Some [(id_oct, []); (id_encode, []); (id_SizedEncode, [])]) (YPath [(id_core, []); (id_num, []); (id_NonZero, [(YPath [(id_isize, [])])])])
    [(id_MAX_ENCODED_SIZE, (EQual (YPath [(id_isize, [])]) [(id_oct, []); (id_encode, []); (id_SizedEncode, [])] [(id_MAX_ENCODED_SIZE, [])]))] [] [].

(* oct/src/encode/sized_encode/mod.rs:310 *)
Definition src_SizedEncode_NonZero_u128 : impl :=
  Impl [] [] [] (Some [(id_oct, []); (id_encode, []); (id_SizedEncode, [])]) (YPath [(id_core, []); (id_num, []); (id_NonZero, [(YPath [(id_u128, [])])])])
    [(id_MAX_ENCODED_SIZE, (EQual (YPath [(id_u128, [])]) [(id_oct, []); (id_encode, []); (id_SizedEncode, [])] [(id_MAX_ENCODED_SIZE, [])]))] [] [].

(* oct/src/encode/sized_encode/mod.rs:310 *)
Definition src_SizedEncode_NonZero_u16 : impl :=
  Impl [] [] [] (Some [(id_oct, []); (id_encode, []); (id_SizedEncode, [])]) (YPath [(id_core, []); (id_num, []); (id_NonZero, [(YPath [(id_u16, [])])])])
    [(id_MAX_ENCODED_SIZE, (EQual (YPath [(id_u16, [])]) [(id_oct, []); (id_encode, []); (id_SizedEncode, [])] [(id_MAX_ENCODED_SIZE, [])]))] [] [].

(* oct/src/encode/sized_encode/mod.rs:310 *)
Definition src_SizedEncode_NonZero_u32 : impl :=
  Impl [] [] [] (Some [(id_oct, []); (id_encode, []); (id_SizedEncode, [])]) (YPath [(id_core, []); (id_num, []); (id_NonZero, [(YPath [(id_u32, [])])])])
    [(id_MAX_ENCODED_SIZE, (EQual (YPath [(id_u32, [])]) [(id_oct, []); (id_encode, []); (id_SizedEncode, [])] [(id_MAX_ENCODED_SIZE, [])]))] [] [].

(* oct/src/encode/sized_encode/mod.rs:310 *)
Definition src_SizedEncode_NonZero_u64 : impl :=
  Impl [] [] [] (Some [(id_oct, []); (id_encode, []); (id_SizedEncode, [])]) (YPath [(id_core, []); (id_num, []); (id_NonZero, [(YPath [(id_u64, [])])])])
    [(id_MAX_ENCODED_SIZE, (EQual (YPath [(id_u64, [])]) [(id_oct, []); (id_encode, []); (id_SizedEncode, [])] [(id_MAX_ENCODED_SIZE, [])]))] [] [].

(* oct/src/encode/sized_encode/mod.rs:310 *)
Definition src_SizedEncode_NonZero_u8 : impl :=
  Impl [] [] [] (Some [(id_oct, []); (id_encode, []); (id_SizedEncode, [])]) (YPath [(id_core, []); (id_num, []); (id_NonZero, [(YPath [(id_u8, [])])])])
    [(id_MAX_ENCODED_SIZE, (EQual (YPath [(id_u8, [])]) [(id_oct, []); (id_encode, []); (id_SizedEncode, [])] [(id_MAX_ENCODED_SIZE, [])]))] [] [].

(* oct/src/encode/sized_encode/mod.rs:310 *)
Definition src_SizedEncode_NonZero_usize : impl :=
  Impl [] [] [] (Some [(id_oct, []); (id_encode, []); (id_SizedEncode, [])]) (YPath [(id_core, []); (id_num, []); (id_NonZero, [(YPath [(id_usize, [])])])])
    [(id_MAX_ENCODED_SIZE, (EQual (YPath [(id_usize, [])]) [(id_oct, []); (id_encode, []); (id_SizedEncode, [])] [(id_MAX_ENCODED_SIZE, [])]))] [] [].

(* oct/src/encode/sized_encode/mod.rs:324 *)
Definition src_SizedEncode_AtomicBool : impl :=
  Impl [] [] [] (Some [(id_oct, []); (id_encode, []); (id_SizedEncode, [])]) (YPath [(id_std, []); (id_sync, []); (id_atomic, []); (id_AtomicBool, [])])
    [(id_MAX_ENCODED_SIZE, (EQual (YPath [(id_bool, [])]) [(id_oct, []); (id_encode, []); (id_SizedEncode, [])] [(id_MAX_ENCODED_SIZE, [])]))] [] [].

(* oct/src/encode/sized_encode/mod.rs:324 *)
Definition src_SizedEncode_AtomicI16 : impl :=
  Impl [] [] [] (Some [(id_oct, []); (id_encode, []); (id_SizedEncode, [])]) (YPath [(id_std, []); (id_sync, []); (id_atomic, []); (id_AtomicI16, [])])
    [(id_MAX_ENCODED_SIZE, (EQual (YPath [(id_i16, [])]) [(id_oct, []); (id_encode, []); (id_SizedEncode, [])] [(id_MAX_ENCODED_SIZE, [])]))] [] [].

(* oct/src/encode/sized_encode/mod.rs:324 *)
Definition src_SizedEncode_AtomicI32 : impl :=
  Impl [] [] [] (Some [(id_oct, []); (id_encode, []); (id_SizedEncode, [])]) (YPath [(id_std, []); (id_sync, []); (id_atomic, []); (id_AtomicI32, [])])
    [(id_MAX_ENCODED_SIZE, (EQual (YPath [(id_i32, [])]) [(id_oct, []); (id_encode, []); (id_SizedEncode, [])] [(id_MAX_ENCODED_SIZE, [])]))] [] [].

(* oct/src/encode/sized_encode/mod.rs:324 *)
Definition src_SizedEncode_AtomicI64 : impl :=
  Impl [] [] [] (Some [(id_oct, []); (id_encode, []); (id_SizedEncode, [])]) (YPath [(id_std, []); (id_sync, []); (id_atomic, []); (id_AtomicI64, [])])
    [(id_MAX_ENCODED_SIZE, (EQual (YPath [(id_i64, [])]) [(id_oct, []); (id_encode, []); (id_SizedEncode, [])] [(id_MAX_ENCODED_SIZE, [])]))] [] [].

(* oct/src/encode/sized_encode/mod.rs:324 *)
Definition src_SizedEncode_AtomicI8 : impl :=
  Impl [] [] [] (Some [(id_oct, []); (id_encode, []); (id_SizedEncode, [])]) (YPath [(id_std, []); (id_sync, []); (id_atomic, []); (id_AtomicI8, [])])
    [(id_MAX_ENCODED_SIZE, (EQual (YPath [(id_i8, [])]) [(id_oct, []); (id_encode, []); (id_SizedEncode, [])] [(id_MAX_ENCODED_SIZE, [])]))] [] [].

(* oct/src/encode/sized_encode/mod.rs:324 *)
Definition src_SizedEncode_AtomicIsize : impl :=
  Impl [] [] [] (Some [(id_oct, []); (id_encode, []); (id_SizedEncode, [])]) (YPath [(id_std, []); (id_sync, []); (id_atomic, []); (id_AtomicIsize, [])])
    [(id_MAX_ENCODED_SIZE, (EQual (YPath [(id_isize, [])]) [(id_oct, []); (id_encode, []); (id_SizedEncode, [])] [(id_MAX_ENCODED_SIZE, [])]))] [] [].

(* oct/src/encode/sized_encode/mod.rs:324 *)
Definition src_SizedEncode_AtomicU16 : impl :=
  Impl [] [] [] (Some [(id_oct, []); (id_encode, []); (id_SizedEncode, [])]) (YPath [(id_std, []); (id_sync, []); (id_atomic, []); (id_AtomicU16, [])])
    [(id_MAX_ENCODED_SIZE, (EQual (YPath [(id_u16, [])]) [(id_oct, []); (id_encode, []); (id_SizedEncode, [])] [(id_MAX_ENCODED_SIZE, [])]))] [] [].

(* oct/src/encode/sized_encode/mod.rs:324 *)
Definition src_SizedEncode_AtomicU32 : impl :=
  Impl [] [] [] (Some [(id_oct, []); (id_encode, []); (id_SizedEncode, [])]) (YPath [(id_std, []); (id_sync, []); (id_atomic, []); (id_AtomicU32, [])])
    [(id_MAX_ENCODED_SIZE, (EQual (YPath [(id_u32, [])]) [(id_oct, []); (id_encode, []); (id_SizedEncode, [])] [(id_MAX_ENCODED_SIZE, [])]))] [] [].

(* oct/src/encode/sized_encode/mod.rs:324 *)
Definition src_SizedEncode_AtomicU64 : impl :=
  Impl [] [] [] (Some [(id_oct, []); (id_encode, []); (id_SizedEncode, [])]) (YPath [(id_std, []); (id_sync, []); (id_atomic, []); (id_AtomicU64, [])])
    [(id_MAX_ENCODED_SIZE, (EQual (YPath [(id_u64, [])]) [(id_oct, []); (id_encode, []); (id_SizedEncode, [])] [(id_MAX_ENCODED_SIZE, [])]))] [] [].

(* oct/src/encode/sized_encode/mod.rs:324 *)
Definition src_SizedEncode_AtomicU8 : impl :=
  Impl [] [] [] (Some [(id_oct, []); (id_encode, []); (id_SizedEncode, [])]) (YPath [(id_std, []); (id_sync, []); (id_atomic, []); (id_AtomicU8, [])])
    [(id_MAX_ENCODED_SIZE, (EQual (YPath [(id_u8, [])]) [(id_oct, []); (id_encode, []); (id_SizedEncode, [])] [(id_MAX_ENCODED_SIZE, [])]))] [] [].

(* oct/src/encode/sized_encode/mod.rs:324 *)
Definition src_SizedEncode_AtomicUsize : impl :=
  Impl [] [] [] (Some [(id_oct, []); (id_encode, []); (id_SizedEncode, [])]) (YPath [(id_std, []); (id_sync, []); (id_atomic, []); (id_AtomicUsize, [])])
    [(id_MAX_ENCODED_SIZE, (EQual (YPath [(id_usize, [])]) [(id_oct, []); (id_encode, []); (id_SizedEncode, [])] [(id_MAX_ENCODED_SIZE, [])]))] [] [].

(* oct/src/sized_slice/code.rs:61 *)
Definition src_SizedEncode_SizedSlice_T_N : impl :=
  Impl [id_T] [id_N] [((YPath [(id_T, [])]), [(id_SizedEncode, [])])] (Some [(id_SizedEncode, [])]) (YPath [(id_SizedSlice, [(YPath [(id_T, [])]); (YPath [(id_N, [])])])])
    [(id_MAX_ENCODED_SIZE, (EBin OMul (EPath [(id_T, []); (id_MAX_ENCODED_SIZE, [])]) (EPath [(id_N, [])])))] [] [].

(* oct/src/sized_str/code.rs:58 *)
Definition src_SizedEncode_SizedStr_N : impl :=
  Impl [] [id_N] [] (Some [(id_SizedEncode, [])]) (YPath [(id_SizedStr, [(YPath [(id_N, [])])])])
    [(id_MAX_ENCODED_SIZE, (EBin OAdd (EPath [(id_usize, []); (id_MAX_ENCODED_SIZE, [])]) (EBin OMul (EPath [(id_u8, []); (id_MAX_ENCODED_SIZE, [])]) (EPath [(id_N, [])]))))] [] [].

(* all of them, in the order of the files *)
Definition src_sizes_impls : list impl := [src_SizedEncode_ref; src_SizedEncode_ref_mut; src_SizedEncode_tuple1; src_SizedEncode_array; src_SizedEncode_Arc_T; src_SizedEncode_bool; src_SizedEncode_Bound_T; src_SizedEncode_Box_T; src_SizedEncode_Cell_T; src_SizedEncode_char; src_SizedEncode_Cow_T; src_SizedEncode_Duration; src_SizedEncode_Infallible; src_SizedEncode_IpAddr; src_SizedEncode_Ipv4Addr; src_SizedEncode_Ipv6Addr; src_SizedEncode_isize; src_SizedEncode_LazyCell_T; src_SizedEncode_LazyLock_T; src_SizedEncode_Mutex_T; src_SizedEncode_Option_T; src_SizedEncode_PhantomData_T; src_SizedEncode_Range_T; src_SizedEncode_RangeFrom_T; src_SizedEncode_RangeFull; src_SizedEncode_RangeInclusive_T; src_SizedEncode_RangeTo_T; src_SizedEncode_RangeToInclusive_T; src_SizedEncode_Rc_T; src_SizedEncode_RefCell_T; src_SizedEncode_Result_T_E; src_SizedEncode_RwLock_T; src_SizedEncode_Saturating_T; src_SizedEncode_SocketAddr; src_SizedEncode_SocketAddrV4; src_SizedEncode_SocketAddrV6; src_SizedEncode_SystemTime; src_SizedEncode_tuple0; src_SizedEncode_usize; src_SizedEncode_Wrapping_T; src_SizedEncode_f32; src_SizedEncode_f64; src_SizedEncode_i128; src_SizedEncode_i16; src_SizedEncode_i32; src_SizedEncode_i64; src_SizedEncode_i8; src_SizedEncode_u128; src_SizedEncode_u16; src_SizedEncode_u32; src_SizedEncode_u64; src_SizedEncode_u8; src_SizedEncode_tuple2; src_SizedEncode_tuple3; src_SizedEncode_tuple4; src_SizedEncode_tuple5; src_SizedEncode_tuple6; src_SizedEncode_tuple7; src_SizedEncode_tuple8; src_SizedEncode_tuple9; src_SizedEncode_tuple10; src_SizedEncode_tuple11; src_SizedEncode_tuple12; src_SizedEncode_NonZero_i128; src_SizedEncode_NonZero_i16; src_SizedEncode_NonZero_i32; src_SizedEncode_NonZero_i64; src_SizedEncode_NonZero_i8; src_SizedEncode_NonZero_isize; src_SizedEncode_NonZero_u128; src_SizedEncode_NonZero_u16; src_SizedEncode_NonZero_u32; src_SizedEncode_NonZero_u64; src_SizedEncode_NonZero_u8; src_SizedEncode_NonZero_usize; src_SizedEncode_AtomicBool; src_SizedEncode_AtomicI16; src_SizedEncode_AtomicI32; src_SizedEncode_AtomicI64; src_SizedEncode_AtomicI8; src_SizedEncode_AtomicIsize; src_SizedEncode_AtomicU16; src_SizedEncode_AtomicU32; src_SizedEncode_AtomicU64; src_SizedEncode_AtomicU8; src_SizedEncode_AtomicUsize; src_SizedEncode_SizedSlice_T_N; src_SizedEncode_SizedStr_N].
