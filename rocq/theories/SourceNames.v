(* Generated by tools/rust2v.py: the names that occur in the source of the crate, and some of the standard library. Do not edit. *)
From Coq Require Import NArith.

Inductive name :=
| id_Arc
| id_AsMut
| id_AsRef
| id_AtomicBool
| id_AtomicI16
| id_AtomicI32
| id_AtomicI64
| id_AtomicI8
| id_AtomicIsize
| id_AtomicU16
| id_AtomicU32
| id_AtomicU64
| id_AtomicU8
| id_AtomicUsize
| id_Attribute
| id_B
| id_BadBorrow
| id_BadDiscriminant
| id_BadField
| id_BadItem
| id_BadLength
| id_BadString
| id_BadUtf16
| id_BadUtf8
| id_BadValue
| id_Borrow
| id_BorrowError
| id_BorrowMut
| id_Bound
| id_Box
| id_BuildHasher
| id_CStr
| id_CString
| id_CStringDecodeError
| id_Cell
| id_CharDecodeError
| id_CharIndices
| id_Chars
| id_Clone
| id_CollectionDecodeError
| id_CollectionEncodeError
| id_Const
| id_Copy
| id_Cow
| id_D
| id_Data
| id_DataEnum
| id_DataStruct
| id_Debug
| id_Decode
| id_DecodeBorrowed
| id_Default
| id_Deref
| id_DerefMut
| id_DeriveInput
| id_Discriminants
| id_Display
| id_DoubleEndedIterator
| id_Duration
| id_E
| id_Encode
| id_Enum
| id_EnumDecodeError
| id_EnumEncodeError
| id_Eq
| id_Err
| id_Error
| id_ExactSizeIterator
| id_Excluded
| id_Expr
| id_F
| id_Fields
| id_Formatter
| id_From
| id_FromIterator
| id_FromStr
| id_FusedIterator
| id_GenericDecodeError
| id_GenericEncodeError
| id_GenericName
| id_GenericParam
| id_Generics
| id_H
| id_Hash
| id_HashMap
| id_HashSet
| id_I
| id_I128
| id_I16
| id_I32
| id_I64
| id_I8
| id_Ident
| id_Included
| id_Index
| id_IndexMut
| id_Infallible
| id_Input
| id_InputError
| id_Int
| id_Into
| id_IntoIter
| id_IntoIterator
| id_InvalidDiscriminant
| id_IpAddr
| id_Ipv4Addr
| id_Ipv6Addr
| id_Isize
| id_IsizeEncodeError
| id_Item
| id_ItemDecodeError
| id_ItemEncodeError
| id_Iter
| id_IterMut
| id_Iterator
| id_K
| id_L
| id_LargeIsize
| id_LargeUsize
| id_Layout
| id_LazyCell
| id_LazyLock
| id_LengthError
| id_Lifetime
| id_LinkedList
| id_Lit
| id_LitInt
| id_M
| id_MAX
| id_MAX_ENCODED_SIZE
| id_MIN
| id_ManuallyDrop
| id_MaybeUninit
| id_Mutex
| id_N
| id_Named
| id_NarrowSystemTime
| id_NonZero
| id_NonZeroDecodeError
| id_None
| id_NullInteger
| id_NullString
| id_Ok
| id_Option
| id_Ord
| id_Ordering
| id_OsStr
| id_Output
| id_OutputError
| id_Owned
| id_PartialEq
| id_PartialOrd
| id_Path
| id_PathSegment
| id_PhantomData
| id_PhantomPinned
| id_PoisonError
| id_PrimitiveDiscriminant
| id_Punctuated
| id_Range
| id_RangeFrom
| id_RangeFull
| id_RangeInclusive
| id_RangeTo
| id_RangeToInclusive
| id_Rc
| id_Ref
| id_RefCell
| id_RefCellEncodeError
| id_RefUnwindSafe
| id_Relaxed
| id_Repr
| id_Result
| id_RwLock
| id_S
| id_Saturating
| id_SealedPrimitiveDiscriminant
| id_Self
| id_Send
| id_SizedEncode
| id_SizedIter
| id_SizedSlice
| id_SizedStr
| id_SliceIndex
| id_Slot
| id_SmallBuffer
| id_SocketAddr
| id_SocketAddrV4
| id_SocketAddrV6
| id_Some
| id_Span
| id_String
| id_StringError
| id_Struct
| id_Sync
| id_SystemTime
| id_SystemTimeDecodeError
| id_SystemTimeError
| id_T
| id_T0
| id_T1
| id_T10
| id_T11
| id_T2
| id_T3
| id_T4
| id_T5
| id_T6
| id_T7
| id_T8
| id_T9
| id_Target
| id_ToOwned
| id_ToSocketAddrs
| id_ToTokens
| id_Token
| id_TokenStream
| id_TryFrom
| id_TryFromIntError
| id_Ty
| id_Type
| id_TypePath
| id_U
| id_U128
| id_U16
| id_U32
| id_U64
| id_U8
| id_UNIX_EPOCH
| id_UnassignedDiscriminant
| id_Unbounded
| id_Union
| id_Unit
| id_Unnamed
| id_Unpin
| id_UnwindSafe
| id_Usize
| id_UsizeEncodeError
| id_Utf16Error
| id_Utf8Error
| id_V
| id_V4
| id_V6
| id_Variant
| id_Vec
| id_Wrapping
| id__e
| id__fields
| id__input
| id__output
| id__ty
| id__v
| id__value
| id_add
| id_addr
| id_alloc
| id_arguments
| id_array
| id_as_bytes
| id_as_c_str
| id_as_mut
| id_as_mut_ptr
| id_as_mut_slice
| id_as_mut_str
| id_as_ptr
| id_as_ref
| id_as_secs
| id_as_slice
| id_as_str
| id_assert
| id_assume_init
| id_assume_init_drop
| id_assume_init_read
| id_atomic
| id_attr
| id_attrs
| id_base10_digits
| id_body
| id_bool
| id_borrow
| id_borrow_mut
| id_bound
| id_buf
| id_c
| id_call_site
| id_cap
| id_capacity
| id_captures
| id_cast
| id_chain
| id_char
| id_char_indices
| id_chars
| id_checked_add
| id_checked_sub
| id_clone
| id_cmp
| id_code_point
| id_collect
| id_commands
| id_convert
| id_copy_from_slice
| id_copy_nonoverlapping
| id_core
| id_count
| id_data
| id_debug_assert
| id_decode
| id_decode_enum
| id_decode_struct
| id_default
| id_deref
| id_deref_mut
| id_derive_decode
| id_derive_encode
| id_derive_sized_encode
| id_discriminant
| id_discriminants
| id_dst
| id_duration
| id_duration_since
| id_e
| id_each_mut
| id_each_ref
| id_encode
| id_encode_enum
| id_encode_struct
| id_encode_utf8
| id_end
| id_enum_body
| id_enumerate
| id_eq
| id_error
| id_expect
| id_expr
| id_extract_from
| id_f
| id_f32
| id_f64
| id_field
| id_field_names
| id_fields
| id_flow_info
| id_flowinfo
| id_fmt
| id_format
| id_from
| id_from_bits
| id_from_boxed_utf8_unchecked
| id_from_iter
| id_from_le_bytes
| id_from_raw
| id_from_raw_parts
| id_from_raw_parts_mut
| id_from_secs
| id_from_str
| id_from_u32_unchecked
| id_from_utf8
| id_from_utf8_unchecked
| id_from_utf8_unchecked_mut
| id_from_vec_unchecked
| id_generic
| id_generic_names
| id_generic_params
| id_generic_where
| id_generics
| id_get
| id_get_mut
| id_get_unchecked
| id_get_unchecked_mut
| id_hash
| id_i
| id_i128
| id_i16
| id_i32
| id_i64
| id_i8
| id_ident
| id_impl_derive_macro
| id_impls
| id_index
| id_index_mut
| id_init_buf
| id_input
| id_insert
| id_into
| id_into_boxed_slice
| id_into_boxed_str
| id_into_bytes
| id_into_inner
| id_into_iter
| id_into_raw_parts
| id_into_string
| id_into_vec
| id_io
| id_ip
| id_is_empty
| id_is_full
| id_is_ident
| id_is_null
| id_is_positive
| id_isize
| id_item
| id_iter
| id_iter_mut
| id_key
| id_last
| id_layout
| id_leading_colon
| id_len
| id_len_utf8
| id_lifetime
| id_lit
| id_load
| id_lock
| id_map
| id_map_err
| id_mem
| id_meta
| id_name
| id_named
| id_names
| id_nanos
| id_new
| id_new_unchecked
| id_next
| id_next_back
| id_nth
| id_null
| id_null_mut
| id_num
| id_oct
| id_ok_or
| id_once
| id_or_else
| id_other
| id_output
| id_panic
| id_param
| id_params
| id_parse
| id_parse2
| id_parse_macro_input
| id_parse_nested_meta
| id_partial_cmp
| id_path
| id_pattern
| id_patterns
| id_port
| id_pos
| id_position
| id_prev
| id_ptr
| id_push
| id_push_back
| id_qself
| id_quote
| id_read
| id_read_into
| id_rem
| id_remaining
| id_repeat_n
| id_repr
| id_req
| id_require_ident
| id_result
| id_s
| id_scope_id
| id_secs
| id_segments
| id_self
| id_self_name
| id_set_len
| id_set_len_unchecked
| id_sign
| id_size_hint
| id_size_of
| id_sized_encode_enum
| id_sized_encode_struct
| id_skipped
| id_slice
| id_slice_from_raw_parts_mut
| id_slot
| id_source
| id_span
| id_src
| id_start
| id_state
| id_std
| id_stop
| id_str
| id_stream
| id_struct_body
| id_subsec_nanos
| id_sync
| id_this
| id_time
| id_timestamp
| id_to_bits
| id_to_bytes
| id_to_ident
| id_to_le_bytes
| id_to_path
| id_to_socket_addrs
| id_to_str
| id_to_string
| id_to_tokens
| id_to_type
| id_to_u128
| id_tokens
| id_trait_name
| id_trait_path
| id_try_borrow
| id_try_from
| id_ty
| id_tys
| id_u128
| id_u16
| id_u32
| id_u64
| id_u8
| id_unchecked_sub
| id_uninit
| id_unreachable
| id_unreachable_unchecked
| id_unsafe_token
| id_unsigned_abs
| id_unwrap
| id_unwrap_or_default
| id_unwrap_or_else
| id_usize
| id_v
| id_valid_up_to
| id_value
| id_value0
| id_value1
| id_value10
| id_value11
| id_value2
| id_value3
| id_value4
| id_value5
| id_value6
| id_value7
| id_value8
| id_value9
| id_values
| id_variant
| id_variant_name
| id_variants
| id_vec
| id_where_clause
| id_with_capacity
| id_with_capacity_and_hasher
| id_write
| id_zip.

Definition name_code (x : name) : N :=
  match x with
  | id_Arc => 0
  | id_AsMut => 1
  | id_AsRef => 2
  | id_AtomicBool => 3
  | id_AtomicI16 => 4
  | id_AtomicI32 => 5
  | id_AtomicI64 => 6
  | id_AtomicI8 => 7
  | id_AtomicIsize => 8
  | id_AtomicU16 => 9
  | id_AtomicU32 => 10
  | id_AtomicU64 => 11
  | id_AtomicU8 => 12
  | id_AtomicUsize => 13
  | id_Attribute => 14
  | id_B => 15
  | id_BadBorrow => 16
  | id_BadDiscriminant => 17
  | id_BadField => 18
  | id_BadItem => 19
  | id_BadLength => 20
  | id_BadString => 21
  | id_BadUtf16 => 22
  | id_BadUtf8 => 23
  | id_BadValue => 24
  | id_Borrow => 25
  | id_BorrowError => 26
  | id_BorrowMut => 27
  | id_Bound => 28
  | id_Box => 29
  | id_BuildHasher => 30
  | id_CStr => 31
  | id_CString => 32
  | id_CStringDecodeError => 33
  | id_Cell => 34
  | id_CharDecodeError => 35
  | id_CharIndices => 36
  | id_Chars => 37
  | id_Clone => 38
  | id_CollectionDecodeError => 39
  | id_CollectionEncodeError => 40
  | id_Const => 41
  | id_Copy => 42
  | id_Cow => 43
  | id_D => 44
  | id_Data => 45
  | id_DataEnum => 46
  | id_DataStruct => 47
  | id_Debug => 48
  | id_Decode => 49
  | id_DecodeBorrowed => 50
  | id_Default => 51
  | id_Deref => 52
  | id_DerefMut => 53
  | id_DeriveInput => 54
  | id_Discriminants => 55
  | id_Display => 56
  | id_DoubleEndedIterator => 57
  | id_Duration => 58
  | id_E => 59
  | id_Encode => 60
  | id_Enum => 61
  | id_EnumDecodeError => 62
  | id_EnumEncodeError => 63
  | id_Eq => 64
  | id_Err => 65
  | id_Error => 66
  | id_ExactSizeIterator => 67
  | id_Excluded => 68
  | id_Expr => 69
  | id_F => 70
  | id_Fields => 71
  | id_Formatter => 72
  | id_From => 73
  | id_FromIterator => 74
  | id_FromStr => 75
  | id_FusedIterator => 76
  | id_GenericDecodeError => 77
  | id_GenericEncodeError => 78
  | id_GenericName => 79
  | id_GenericParam => 80
  | id_Generics => 81
  | id_H => 82
  | id_Hash => 83
  | id_HashMap => 84
  | id_HashSet => 85
  | id_I => 86
  | id_I128 => 87
  | id_I16 => 88
  | id_I32 => 89
  | id_I64 => 90
  | id_I8 => 91
  | id_Ident => 92
  | id_Included => 93
  | id_Index => 94
  | id_IndexMut => 95
  | id_Infallible => 96
  | id_Input => 97
  | id_InputError => 98
  | id_Int => 99
  | id_Into => 100
  | id_IntoIter => 101
  | id_IntoIterator => 102
  | id_InvalidDiscriminant => 103
  | id_IpAddr => 104
  | id_Ipv4Addr => 105
  | id_Ipv6Addr => 106
  | id_Isize => 107
  | id_IsizeEncodeError => 108
  | id_Item => 109
  | id_ItemDecodeError => 110
  | id_ItemEncodeError => 111
  | id_Iter => 112
  | id_IterMut => 113
  | id_Iterator => 114
  | id_K => 115
  | id_L => 116
  | id_LargeIsize => 117
  | id_LargeUsize => 118
  | id_Layout => 119
  | id_LazyCell => 120
  | id_LazyLock => 121
  | id_LengthError => 122
  | id_Lifetime => 123
  | id_LinkedList => 124
  | id_Lit => 125
  | id_LitInt => 126
  | id_M => 127
  | id_MAX => 128
  | id_MAX_ENCODED_SIZE => 129
  | id_MIN => 130
  | id_ManuallyDrop => 131
  | id_MaybeUninit => 132
  | id_Mutex => 133
  | id_N => 134
  | id_Named => 135
  | id_NarrowSystemTime => 136
  | id_NonZero => 137
  | id_NonZeroDecodeError => 138
  | id_None => 139
  | id_NullInteger => 140
  | id_NullString => 141
  | id_Ok => 142
  | id_Option => 143
  | id_Ord => 144
  | id_Ordering => 145
  | id_OsStr => 146
  | id_Output => 147
  | id_OutputError => 148
  | id_Owned => 149
  | id_PartialEq => 150
  | id_PartialOrd => 151
  | id_Path => 152
  | id_PathSegment => 153
  | id_PhantomData => 154
  | id_PhantomPinned => 155
  | id_PoisonError => 156
  | id_PrimitiveDiscriminant => 157
  | id_Punctuated => 158
  | id_Range => 159
  | id_RangeFrom => 160
  | id_RangeFull => 161
  | id_RangeInclusive => 162
  | id_RangeTo => 163
  | id_RangeToInclusive => 164
  | id_Rc => 165
  | id_Ref => 166
  | id_RefCell => 167
  | id_RefCellEncodeError => 168
  | id_RefUnwindSafe => 169
  | id_Relaxed => 170
  | id_Repr => 171
  | id_Result => 172
  | id_RwLock => 173
  | id_S => 174
  | id_Saturating => 175
  | id_SealedPrimitiveDiscriminant => 176
  | id_Self => 177
  | id_Send => 178
  | id_SizedEncode => 179
  | id_SizedIter => 180
  | id_SizedSlice => 181
  | id_SizedStr => 182
  | id_SliceIndex => 183
  | id_Slot => 184
  | id_SmallBuffer => 185
  | id_SocketAddr => 186
  | id_SocketAddrV4 => 187
  | id_SocketAddrV6 => 188
  | id_Some => 189
  | id_Span => 190
  | id_String => 191
  | id_StringError => 192
  | id_Struct => 193
  | id_Sync => 194
  | id_SystemTime => 195
  | id_SystemTimeDecodeError => 196
  | id_SystemTimeError => 197
  | id_T => 198
  | id_T0 => 199
  | id_T1 => 200
  | id_T10 => 201
  | id_T11 => 202
  | id_T2 => 203
  | id_T3 => 204
  | id_T4 => 205
  | id_T5 => 206
  | id_T6 => 207
  | id_T7 => 208
  | id_T8 => 209
  | id_T9 => 210
  | id_Target => 211
  | id_ToOwned => 212
  | id_ToSocketAddrs => 213
  | id_ToTokens => 214
  | id_Token => 215
  | id_TokenStream => 216
  | id_TryFrom => 217
  | id_TryFromIntError => 218
  | id_Ty => 219
  | id_Type => 220
  | id_TypePath => 221
  | id_U => 222
  | id_U128 => 223
  | id_U16 => 224
  | id_U32 => 225
  | id_U64 => 226
  | id_U8 => 227
  | id_UNIX_EPOCH => 228
  | id_UnassignedDiscriminant => 229
  | id_Unbounded => 230
  | id_Union => 231
  | id_Unit => 232
  | id_Unnamed => 233
  | id_Unpin => 234
  | id_UnwindSafe => 235
  | id_Usize => 236
  | id_UsizeEncodeError => 237
  | id_Utf16Error => 238
  | id_Utf8Error => 239
  | id_V => 240
  | id_V4 => 241
  | id_V6 => 242
  | id_Variant => 243
  | id_Vec => 244
  | id_Wrapping => 245
  | id__e => 246
  | id__fields => 247
  | id__input => 248
  | id__output => 249
  | id__ty => 250
  | id__v => 251
  | id__value => 252
  | id_add => 253
  | id_addr => 254
  | id_alloc => 255
  | id_arguments => 256
  | id_array => 257
  | id_as_bytes => 258
  | id_as_c_str => 259
  | id_as_mut => 260
  | id_as_mut_ptr => 261
  | id_as_mut_slice => 262
  | id_as_mut_str => 263
  | id_as_ptr => 264
  | id_as_ref => 265
  | id_as_secs => 266
  | id_as_slice => 267
  | id_as_str => 268
  | id_assert => 269
  | id_assume_init => 270
  | id_assume_init_drop => 271
  | id_assume_init_read => 272
  | id_atomic => 273
  | id_attr => 274
  | id_attrs => 275
  | id_base10_digits => 276
  | id_body => 277
  | id_bool => 278
  | id_borrow => 279
  | id_borrow_mut => 280
  | id_bound => 281
  | id_buf => 282
  | id_c => 283
  | id_call_site => 284
  | id_cap => 285
  | id_capacity => 286
  | id_captures => 287
  | id_cast => 288
  | id_chain => 289
  | id_char => 290
  | id_char_indices => 291
  | id_chars => 292
  | id_checked_add => 293
  | id_checked_sub => 294
  | id_clone => 295
  | id_cmp => 296
  | id_code_point => 297
  | id_collect => 298
  | id_commands => 299
  | id_convert => 300
  | id_copy_from_slice => 301
  | id_copy_nonoverlapping => 302
  | id_core => 303
  | id_count => 304
  | id_data => 305
  | id_debug_assert => 306
  | id_decode => 307
  | id_decode_enum => 308
  | id_decode_struct => 309
  | id_default => 310
  | id_deref => 311
  | id_deref_mut => 312
  | id_derive_decode => 313
  | id_derive_encode => 314
  | id_derive_sized_encode => 315
  | id_discriminant => 316
  | id_discriminants => 317
  | id_dst => 318
  | id_duration => 319
  | id_duration_since => 320
  | id_e => 321
  | id_each_mut => 322
  | id_each_ref => 323
  | id_encode => 324
  | id_encode_enum => 325
  | id_encode_struct => 326
  | id_encode_utf8 => 327
  | id_end => 328
  | id_enum_body => 329
  | id_enumerate => 330
  | id_eq => 331
  | id_error => 332
  | id_expect => 333
  | id_expr => 334
  | id_extract_from => 335
  | id_f => 336
  | id_f32 => 337
  | id_f64 => 338
  | id_field => 339
  | id_field_names => 340
  | id_fields => 341
  | id_flow_info => 342
  | id_flowinfo => 343
  | id_fmt => 344
  | id_format => 345
  | id_from => 346
  | id_from_bits => 347
  | id_from_boxed_utf8_unchecked => 348
  | id_from_iter => 349
  | id_from_le_bytes => 350
  | id_from_raw => 351
  | id_from_raw_parts => 352
  | id_from_raw_parts_mut => 353
  | id_from_secs => 354
  | id_from_str => 355
  | id_from_u32_unchecked => 356
  | id_from_utf8 => 357
  | id_from_utf8_unchecked => 358
  | id_from_utf8_unchecked_mut => 359
  | id_from_vec_unchecked => 360
  | id_generic => 361
  | id_generic_names => 362
  | id_generic_params => 363
  | id_generic_where => 364
  | id_generics => 365
  | id_get => 366
  | id_get_mut => 367
  | id_get_unchecked => 368
  | id_get_unchecked_mut => 369
  | id_hash => 370
  | id_i => 371
  | id_i128 => 372
  | id_i16 => 373
  | id_i32 => 374
  | id_i64 => 375
  | id_i8 => 376
  | id_ident => 377
  | id_impl_derive_macro => 378
  | id_impls => 379
  | id_index => 380
  | id_index_mut => 381
  | id_init_buf => 382
  | id_input => 383
  | id_insert => 384
  | id_into => 385
  | id_into_boxed_slice => 386
  | id_into_boxed_str => 387
  | id_into_bytes => 388
  | id_into_inner => 389
  | id_into_iter => 390
  | id_into_raw_parts => 391
  | id_into_string => 392
  | id_into_vec => 393
  | id_io => 394
  | id_ip => 395
  | id_is_empty => 396
  | id_is_full => 397
  | id_is_ident => 398
  | id_is_null => 399
  | id_is_positive => 400
  | id_isize => 401
  | id_item => 402
  | id_iter => 403
  | id_iter_mut => 404
  | id_key => 405
  | id_last => 406
  | id_layout => 407
  | id_leading_colon => 408
  | id_len => 409
  | id_len_utf8 => 410
  | id_lifetime => 411
  | id_lit => 412
  | id_load => 413
  | id_lock => 414
  | id_map => 415
  | id_map_err => 416
  | id_mem => 417
  | id_meta => 418
  | id_name => 419
  | id_named => 420
  | id_names => 421
  | id_nanos => 422
  | id_new => 423
  | id_new_unchecked => 424
  | id_next => 425
  | id_next_back => 426
  | id_nth => 427
  | id_null => 428
  | id_null_mut => 429
  | id_num => 430
  | id_oct => 431
  | id_ok_or => 432
  | id_once => 433
  | id_or_else => 434
  | id_other => 435
  | id_output => 436
  | id_panic => 437
  | id_param => 438
  | id_params => 439
  | id_parse => 440
  | id_parse2 => 441
  | id_parse_macro_input => 442
  | id_parse_nested_meta => 443
  | id_partial_cmp => 444
  | id_path => 445
  | id_pattern => 446
  | id_patterns => 447
  | id_port => 448
  | id_pos => 449
  | id_position => 450
  | id_prev => 451
  | id_ptr => 452
  | id_push => 453
  | id_push_back => 454
  | id_qself => 455
  | id_quote => 456
  | id_read => 457
  | id_read_into => 458
  | id_rem => 459
  | id_remaining => 460
  | id_repeat_n => 461
  | id_repr => 462
  | id_req => 463
  | id_require_ident => 464
  | id_result => 465
  | id_s => 466
  | id_scope_id => 467
  | id_secs => 468
  | id_segments => 469
  | id_self => 470
  | id_self_name => 471
  | id_set_len => 472
  | id_set_len_unchecked => 473
  | id_sign => 474
  | id_size_hint => 475
  | id_size_of => 476
  | id_sized_encode_enum => 477
  | id_sized_encode_struct => 478
  | id_skipped => 479
  | id_slice => 480
  | id_slice_from_raw_parts_mut => 481
  | id_slot => 482
  | id_source => 483
  | id_span => 484
  | id_src => 485
  | id_start => 486
  | id_state => 487
  | id_std => 488
  | id_stop => 489
  | id_str => 490
  | id_stream => 491
  | id_struct_body => 492
  | id_subsec_nanos => 493
  | id_sync => 494
  | id_this => 495
  | id_time => 496
  | id_timestamp => 497
  | id_to_bits => 498
  | id_to_bytes => 499
  | id_to_ident => 500
  | id_to_le_bytes => 501
  | id_to_path => 502
  | id_to_socket_addrs => 503
  | id_to_str => 504
  | id_to_string => 505
  | id_to_tokens => 506
  | id_to_type => 507
  | id_to_u128 => 508
  | id_tokens => 509
  | id_trait_name => 510
  | id_trait_path => 511
  | id_try_borrow => 512
  | id_try_from => 513
  | id_ty => 514
  | id_tys => 515
  | id_u128 => 516
  | id_u16 => 517
  | id_u32 => 518
  | id_u64 => 519
  | id_u8 => 520
  | id_unchecked_sub => 521
  | id_uninit => 522
  | id_unreachable => 523
  | id_unreachable_unchecked => 524
  | id_unsafe_token => 525
  | id_unsigned_abs => 526
  | id_unwrap => 527
  | id_unwrap_or_default => 528
  | id_unwrap_or_else => 529
  | id_usize => 530
  | id_v => 531
  | id_valid_up_to => 532
  | id_value => 533
  | id_value0 => 534
  | id_value1 => 535
  | id_value10 => 536
  | id_value11 => 537
  | id_value2 => 538
  | id_value3 => 539
  | id_value4 => 540
  | id_value5 => 541
  | id_value6 => 542
  | id_value7 => 543
  | id_value8 => 544
  | id_value9 => 545
  | id_values => 546
  | id_variant => 547
  | id_variant_name => 548
  | id_variants => 549
  | id_vec => 550
  | id_where_clause => 551
  | id_with_capacity => 552
  | id_with_capacity_and_hasher => 553
  | id_write => 554
  | id_zip => 555
  end%N.
Definition name_eqb (x y : name) : bool := N.eqb (name_code x) (name_code y).
