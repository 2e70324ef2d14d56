{
 "claims": [
  {
   "property": "C01",
   "status": "proved",
   "theorems": [
    "C01_output_history"
   ],
   "note": "Any history of writes from any buffer."
  },
  {
   "property": "C02",
   "status": "proved",
   "theorems": [
    "C02_failed_write"
   ],
   "note": "In every reachable state (position within capacity, by C01)."
  },
  {
   "property": "C03",
   "status": "proved",
   "theorems": [
    "C03_input_history",
    "C03_read_into_buffer"
   ],
   "note": "Any history of read and read_into calls."
  },
  {
   "property": "C04",
   "status": "proved",
   "theorems": [
    "C04_output_equality",
    "C04_output_equality_slice"
   ],
   "note": "Output against Output and against slices, after any two histories of writes."
  },
  {
   "property": "C05",
   "status": "proved",
   "theorems": [
    "C05_numbers",
    "C05_ranges",
    "C05_widths"
   ],
   "note": "Integers, NonZero, atomics, floats by bit pattern, char."
  },
  {
   "property": "C06",
   "status": "proved",
   "theorems": [
    "C06_wire_format"
   ],
   "note": "An equivalence with the independent relation Wire (Spec.v), for every type of the universe, including nested ones."
  },
  {
   "property": "C07",
   "status": "proved",
   "theorems": [
    "C07_encode_touches_only_appended"
   ],
   "note": "For every outcome, including panics."
  },
  {
   "property": "C08",
   "status": "proved",
   "theorems": [
    "C08_context_independence"
   ],
   "note": "For Ok and Err alike."
  },
  {
   "property": "C09",
   "status": "proved",
   "theorems": [
    "C09_panics_iff_too_small"
   ],
   "note": "Fixed encoding per value; panics exactly when it does not fit; the lowest SystemTime second is the exception in the English."
  },
  {
   "property": "C10",
   "status": "proved",
   "theorems": [
    "C10_errs_iff_unrepresentable"
   ],
   "note": "Representable (Spec.v) is independent of the encoder."
  },
  {
   "property": "C11",
   "status": "proved",
   "theorems": [
    "C11_encode_item_error",
    "C11_encode_too_long",
    "C11_decode_item_error"
   ],
   "note": "Encoding of arrays, slices, Vec, LinkedList, SizedSlice; decoding of arrays, Vec, LinkedList, HashSet, SizedSlice."
  },
  {
   "property": "C12",
   "status": "proved",
   "theorems": [
    "C12_usize",
    "C12_isize",
    "C12_decode"
   ],
   "note": "Encoding and decoding, for all usize and isize values of 64 bits."
  },
  {
   "property": "C13",
   "status": "partial",
   "theorems": [
    "C13_round_trip_partial",
    "C13_round_trip_exact_partial",
    "C13_round_trip_refuted",
    "C13_writable",
    "C13_exact"
   ],
   "note": "Refuted in full: HashMap/HashSet write no length, SizedSlice decodes N items, exhausted RangeInclusive and sub-second times are lost. Proved for all other types and values, and the decoded value is given exactly. C104 shows that these are the only values; C13_exact says for which types every value that can be encoded comes back, and for every other type that some value does not. C13_writable: which types have a value that can be encoded."
  },
  {
   "property": "C14",
   "status": "partial",
   "theorems": [
    "C14_chaining_partial",
    "C14_chaining_exact_partial",
    "C14_chaining_refuted",
    "C14_exact"
   ],
   "note": "As C13. C104_chain: values one after another all come back, and the input is left where the output was, exactly if each survives by itself. C14_exact: for which sequences of types this holds of all values."
  },
  {
   "property": "C15",
   "status": "proved",
   "theorems": [
    "C15_decode_locality"
   ],
   "note": "For Ok and Err."
  },
  {
   "property": "C16",
   "status": "proved",
   "theorems": [
    "C16_truncation"
   ],
   "note": "For Ok and Err."
  },
  {
   "property": "C17",
   "status": "partial",
   "theorems": [
    "C17_unambiguous_partial",
    "C17_prefix_free_partial",
    "C17_unambiguous_refuted"
   ],
   "note": "Refuted for HashMap/HashSet (no length) and for values C13 loses. Proved for all types without HashMap/HashSet."
  },
  {
   "property": "C18",
   "status": "partial",
   "theorems": [
    "C18_decoded_values_valid_partial",
    "C18_decoded_values_valid_refuted",
    "C18_exact"
   ],
   "note": "Refuted for char (surrogates from DE00). Proved for all types without char; C18_exact: it fails exactly for the types of which a decodable value can have a char inside."
  },
  {
   "property": "C19",
   "status": "partial",
   "theorems": [
    "C19_char_partial",
    "C19_char_refuted"
   ],
   "note": "Refuted: DE00..DFFF are accepted. Proved: exactly the scalar values and these."
  },
  {
   "property": "C20",
   "status": "partial",
   "theorems": [
    "C20_exact_checked",
    "C20_canonical_partial",
    "C20_alike_partial",
    "C20_normal_partial",
    "C20_canonical_refuted",
    "C20_exact"
   ],
   "note": "Refuted: any non-zero sign octet is accepted, and carried nanoseconds. Proved for types without bool, Option, Result, Duration, SizedSlice, HashMap, HashSet; C20_exact says for every type whether it holds (C20_exact without overflow checks, C20_exact_checked with)."
  },
  {
   "property": "C21",
   "status": "proved",
   "theorems": [
    "C21_decode_panics"
   ],
   "note": "For all types with valid enums that have a decoder."
  },
  {
   "property": "C22",
   "status": "proved",
   "theorems": [
    "C22_decode_moves_forward"
   ],
   "note": "For every outcome."
  },
  {
   "property": "C23",
   "status": "proved",
   "theorems": [
    "C23_sign_octet"
   ],
   "note": "bool, Option and Result, all 256 octets."
  },
  {
   "property": "C24",
   "status": "proved",
   "theorems": [
    "C24_nonzero"
   ],
   "note": "All twelve NonZero types."
  },
  {
   "property": "C25",
   "status": "proved",
   "theorems": [
    "C25_string"
   ],
   "note": "The index is the length of the longest valid prefix."
  },
  {
   "property": "C26",
   "status": "proved",
   "theorems": [
    "C26_cstring"
   ],
   "note": "All byte strings."
  },
  {
   "property": "C27",
   "status": "proved",
   "theorems": [
    "C27_unassigned"
   ],
   "note": "All octets, for the three types. Derived enums: C39."
  },
  {
   "property": "C28",
   "status": "proved",
   "theorems": [
    "C28_duration"
   ],
   "note": "All second counts and nanosecond counts, carries included."
  },
  {
   "property": "C29",
   "status": "partial",
   "theorems": [
    "C29_system_time_partial",
    "C29_nearest_second_refuted",
    "C29_exact"
   ],
   "note": "Refuted: the code rounds towards the epoch. Proved: within one second, exact at whole seconds. C29_exact says which times come back as the nearest whole second."
  },
  {
   "property": "C30",
   "status": "partial",
   "theorems": [
    "C30_ip_octets_partial",
    "C30_ip_octet_order_refuted",
    "C30_exact"
   ],
   "note": "Refuted: the octets are written in reverse of the documented order. Proved: they come back. C30_exact: the documented order is met by exactly the palindromic addresses."
  },
  {
   "property": "C31",
   "status": "partial",
   "theorems": [
    "C31_map_partial",
    "C31_set_partial",
    "C31_set_refuted",
    "C31_map_refuted"
   ],
   "note": "Refuted: the encoder writes no length, the decoder reads one. Proved: decoding a length-prefixed list of entries, last wins."
  },
  {
   "property": "C32",
   "status": "proved",
   "theorems": [
    "C32_encode_transparent",
    "C32_decode_transparent",
    "C32_decode_cow"
   ],
   "note": "Any nesting of the wrappers."
  },
  {
   "property": "C33",
   "status": "partial",
   "theorems": [
    "C33_values",
    "C33_exact",
    "C33_decode_borrowed_partial",
    "C33_long_text",
    "C33_decode_borrowed_refuted"
   ],
   "note": "Refuted for SizedSlice and SizedStr of other lengths. Proved for the others, and for these when the length fits. C33_values says which values are decoded as the owned type, C33_exact which types decode all."
  },
  {
   "property": "C34",
   "status": "proved",
   "theorems": [
    "C34_declared_length",
    "C34_array_length"
   ],
   "note": "Vec, LinkedList, String and CString; arrays."
  },
  {
   "property": "C35",
   "status": "partial",
   "theorems": [
    "C35_max_bounds_encode_partial",
    "C35_room_partial",
    "C35_max_bounds_encode_refuted",
    "C35_exact"
   ],
   "note": "Refuted for SizedSlice (constant leaves out the length) and Result (constant uses memory sizes). Proved for all types without these, and for Result under the stated size condition. C35_exact covers every type: the constant is right exactly if the largest encoding, worked out in SpecPeak.v and proved to be that (C78_largest), is no larger."
  },
  {
   "property": "C36",
   "status": "partial",
   "theorems": [
    "C36_max_bounds_decode_partial",
    "C36_max_bounds_decode_success_partial",
    "C36_max_bounds_decode_refuted",
    "C36_largest",
    "C36_exact"
   ],
   "note": "Refuted for SizedStr (reads a declared length beyond N), SizedSlice, and enums without variants. Proved for the others, and for successful decoding. C36_largest and C36_exact cover every type: what successful decoding takes at most, and hence when the constant bounds it."
  },
  {
   "property": "C37",
   "status": "proved",
   "theorems": [
    "C37_struct_encode",
    "C37_struct_encode_error",
    "C37_struct_decode"
   ],
   "note": "All structs; success and each failing field."
  },
  {
   "property": "C38",
   "status": "proved",
   "theorems": [
    "C38_discriminants",
    "C38_written"
   ],
   "note": "All lists of variants with discriminants of u128."
  },
  {
   "property": "C39",
   "status": "proved",
   "theorems": [
    "C39_enum_encode",
    "C39_enum_encode_error",
    "C39_enum_decode"
   ],
   "note": "All enums with distinct discriminants that fit the representation."
  },
  {
   "property": "C40",
   "status": "proved",
   "theorems": [
    "C40_struct_max",
    "C40_enum_max",
    "C40_struct_attained",
    "C40_enum_attained",
    "C40_struct_bound",
    "C40_enum_bound"
   ],
   "note": "The constant, that it bounds the encodings if those of the fields do, and that it is attained if the fields attain theirs."
  },
  {
   "property": "C41",
   "status": "proved",
   "theorems": [
    "C41_encode_root_cause",
    "C41_decode_root_cause",
    "C41_encode_has_cause",
    "C41_decode_has_cause"
   ],
   "note": "Negative discriminants are the subject of C42."
  },
  {
   "property": "C42",
   "status": "partial",
   "theorems": [
    "C42_zero_extends_partial",
    "C42_zero_extends_refuted",
    "C42_exact"
   ],
   "note": "Refuted: `as u128` sign-extends negative numbers. Proved for the others; C42_exact: the non-negative ones and those of i128 are all."
  },
  {
   "property": "C43",
   "status": "proved",
   "theorems": [
    "C43_slot_invariant"
   ],
   "note": "Histories of write, copy_from_slice, set_len and writing through as_mut_slice/IndexMut."
  },
  {
   "property": "C44",
   "status": "partial",
   "theorems": [
    "C44_slot_write",
    "C44_slot_write_succeeds",
    "C44_slot_read_back_partial",
    "C44_slot_read_back_exact_partial",
    "C44_slot_read_back_refuted",
    "C44_exact"
   ],
   "note": "The write clause in full. Reading back refuted for HashSet (and the other types of C13); proved with the exclusions of C13. C44_exact says for every type whether all values are read back."
  },
  {
   "property": "C45",
   "status": "partial",
   "theorems": [
    "C45_exact",
    "C45_failed_write_partial",
    "C45_failed_write_refuted"
   ],
   "note": "Refuted: the bytes written before the failure stay in the buffer. Proved: the length stays and the contents are as described. C45_exact: the contents stay exactly if the bytes written stood there already."
  },
  {
   "property": "C46",
   "status": "partial",
   "theorems": [
    "C46_read_marked_partial",
    "C46_read_marked_refuted",
    "C46_exact"
   ],
   "note": "Refuted: read passes the whole buffer. Proved when the marked bytes suffice. C46_exact: it holds for a decodable type only if the type takes no octets."
  },
  {
   "property": "C47",
   "status": "partial",
   "theorems": [
    "C47_new_has_room_partial",
    "C47_new_has_room_refuted",
    "C47_exact"
   ],
   "note": "Refuted for SizedSlice and Result, as in C35. Proved for the others after any history; the lowest SystemTime panics for the reason in C09. C47_exact says for every type whether a new Slot has room for all values."
  },
  {
   "property": "C48",
   "status": "partial",
   "theorems": [
    "C48_copy_from_slice",
    "C48_set_len",
    "C48_copied_bytes_decode_partial",
    "C48_copied_bytes_decode_refuted",
    "C48_exact"
   ],
   "note": "copy_from_slice and set_len in full; the decode clause is refuted when the data is too short (C46) and proved otherwise. C48_exact: the decode clause holds for a decodable type only if the type takes no octets."
  },
  {
   "property": "C49",
   "status": "proved",
   "theorems": [
    "C49_new"
   ],
   "note": "Including a clone that panics."
  },
  {
   "property": "C50",
   "status": "proved",
   "theorems": [
    "C50_collect",
    "C50_collect_list"
   ],
   "note": "Any iterator as a state machine, so infinite ones too; how far it is advanced is part of the statement."
  },
  {
   "property": "C51",
   "status": "partial",
   "theorems": [
    "C51_conversions",
    "C51_into_vec_partial",
    "C51_into_vec_refuted",
    "C51_into_vec_exact"
   ],
   "note": "Any history of safe operations. into_vec and into_boxed_slice allocate zero bytes for an empty or zero-sized content, which is undefined behaviour: refuted there, proved elsewhere; C51_into_vec_exact: it is defined exactly elsewhere."
  },
  {
   "property": "C52",
   "status": "proved",
   "theorems": [
    "C52_equality",
    "C52_order",
    "C52_order_total",
    "C52_partial_order",
    "C52_hash"
   ],
   "note": "Any two histories, capacities and item comparisons (PartialEq may be between two types)."
  },
  {
   "property": "C53",
   "status": "partial",
   "theorems": [
    "C53_borrow_hash_partial",
    "C53_borrow_hash_refuted"
   ],
   "note": "Refuted for every SizedSlice: the length prefix that [T] feeds first is missing. Partial: what it feeds is the rest."
  },
  {
   "property": "C54",
   "status": "partial",
   "theorems": [
    "C54_in_bounds_partial",
    "C54_new_in_bounds",
    "C54_in_bounds_refuted",
    "C54_exact"
   ],
   "note": "copy_from_slice is unguarded: refuted for every data longer than N. All other calls, in any history, are proved defined (into_vec: see C51). C54_exact: exactly for data longer than N."
  },
  {
   "property": "C55",
   "status": "partial",
   "theorems": [
    "C55_at_most_once_partial",
    "C55_into_vec_partial",
    "C55_iterated_partial",
    "C55_dropped_once_refuted",
    "C55_exact",
    "C55_array_exact"
   ],
   "note": "Refuted: SizedSlice and SizedIter have no Drop, From<[T; N]> drops the array it copied, nth duplicates. Proved: without nth none is dropped or given twice; exactly once through into_vec or iteration to the end. C55_exact and C55_array_exact say, for every life without nth, whether each item is dropped or given exactly once."
  },
  {
   "property": "C56",
   "status": "partial",
   "theorems": [
    "C56_decode_partial",
    "C56_long",
    "C56_encode",
    "C56_decode_in_types",
    "C56_decode_refuted",
    "C56_values",
    "C56_exact"
   ],
   "note": "Refuted: the decoder always reads N items. Proved for sequences followed by N - len more decodable items (none for full ones), and refusal of longer ones. C56_values: exactly the full sequences, or those of items without octets, decode; C56_exact: of which types all do."
  },
  {
   "property": "C57",
   "status": "proved",
   "theorems": [
    "C57_deque",
    "C57_once",
    "C57_fused"
   ],
   "note": "Any interleaving, from any reachable state."
  },
  {
   "property": "C58",
   "status": "partial",
   "theorems": [
    "C58_size_hint_partial",
    "C58_nth_partial",
    "C58_exact_partial",
    "C58_nth_refuted",
    "C58_nth_exact",
    "C58_size_hint_exact"
   ],
   "note": "Refuted in seven ways. Proved for the value of nth on a fresh iterator within bounds, and for size_hint before the first next. C58_nth_exact: nth is right exactly if nothing is left and the index is not 0. C58_size_hint_exact: size_hint is right exactly if nothing was taken from the front."
  },
  {
   "property": "C59",
   "status": "proved",
   "theorems": [
    "C59_clone"
   ],
   "note": "From any reachable state; the model's values share no memory, as the clone's buffer is its own array."
  },
  {
   "property": "C60",
   "status": "proved",
   "theorems": [
    "C60_always_text"
   ],
   "note": "Any history of safe operations, as_mut_str included."
  },
  {
   "property": "C61",
   "status": "proved",
   "theorems": [
    "C61_new",
    "C61_char",
    "C61_from_utf8"
   ],
   "note": "The index is characterised as that of the longest well-formed prefix."
  },
  {
   "property": "C62",
   "status": "proved",
   "theorems": [
    "C62_collect"
   ],
   "note": "Any iterator of chars as a state machine, so infinite ones too."
  },
  {
   "property": "C63",
   "status": "proved",
   "theorems": [
    "C63_encode",
    "C63_decode",
    "C63_long",
    "C63_only",
    "C63_decode_in_types"
   ],
   "note": "Also that nothing but such encodings is accepted."
  },
  {
   "property": "C64",
   "status": "partial",
   "theorems": [
    "C64_string_exact",
    "C64_raw_parts_partial",
    "C64_string_partial",
    "C64_bytes",
    "C64_conversions_refuted"
   ],
   "note": "Refuted: Default and Clone leave octets uninitialised, the String has the capacity of its length, and an empty one is undefined. Proved otherwise; C64_string_exact: the conversion is defined for exactly the non-empty strings."
  },
  {
   "property": "C65",
   "status": "partial",
   "theorems": [
    "C65_derive_encode_partial",
    "C65_derive_decode_partial",
    "C65_derive_refuted",
    "C65_encode_exact",
    "C65_decode_exact"
   ],
   "note": "Refuted for RefCell and LinkedList (encoding), char and Result (decoding). Proved for all others."
  },
  {
   "property": "C66",
   "status": "proved",
   "theorems": [
    "C66_concurrent_updates",
    "C66_returns"
   ],
   "note": "Interleaving semantics: another thread may store any value to any cell between any two steps of the encoder. An atomic is read by one load; a lock's contents are what they were when the lock was taken. Executions in which the call does not return (a lock that is never released) are not considered. Nothing is claimed about the order in which stores to different atomics are seen."
  },
  {
   "property": "C67",
   "status": "partial",
   "theorems": [
    "C67_infallible_encode_partial",
    "C67_infallible_decode_refuted",
    "C67_infallible_decode_exact"
   ],
   "note": "Proved for encoding; refuted for decoding (ItemDecodeError, EnumDecodeError)."
  },
  {
   "property": "C68",
   "status": "proved",
   "theorems": [
    "C68_encode_error_type",
    "C68_decode_error_type"
   ],
   "note": "For every type that has an implementation, however nested, against the independent relations EOf and DOf (SpecDerive.v)."
  },
  {
   "property": "C69",
   "status": "proved",
   "theorems": [
    "C69_decode_exact",
    "C69_decode_consumes"
   ],
   "note": "An equivalence with the independent relation Accepts (SpecDecode.v)."
  },
  {
   "property": "C70",
   "status": "proved",
   "theorems": [
    "C70_index",
    "C70_index_set",
    "C70_equality"
   ],
   "note": "All slots, indices and slices."
  },
  {
   "property": "C71",
   "status": "proved",
   "theorems": [
    "C71_equality",
    "C71_order",
    "C71_hash"
   ],
   "note": "Any two histories and capacities."
  },
  {
   "property": "C72",
   "status": "partial",
   "theorems": [
    "C72_value",
    "C72_exact",
    "C72_encode_partial",
    "C72_slot_partial",
    "C72_items_partial",
    "C72_encode_refuted"
   ],
   "note": "Refuted: encoding the lowest SystemTime second panics with checks and succeeds without. Proved for everything else, but for SizedIter::nth (see C58_nth_refuted: a panic with checks, undefined behaviour without). C72_value says for every value, and C72_exact for every type, whether encoding is the same in both."
  },
  {
   "property": "C73",
   "status": "partial",
   "theorems": [
    "C73_exact_checked",
    "C73_encode_again_partial",
    "C73_encode_again_refuted",
    "C73_exact"
   ],
   "note": "Refuted for SizedSlice, HashMap and HashSet. Proved: encoding succeeds for all types without char (surrogates, C18), and gives the value back with the exclusions of C13; C73_exact says for every type whether all valid decoded values come back (C73_exact without overflow checks, C73_exact_checked with)."
  },
  {
   "property": "C74",
   "status": "proved",
   "theorems": [
    "C74_encoded_value_fits",
    "C74_decoded_value_fits",
    "C74_transfer"
   ],
   "note": "The model's decoder is the same on every machine; what differs is which usize and isize values exist. The third theorem assumes RoundTrips as C13 does, which is in the English."
  },
  {
   "property": "C75",
   "status": "partial",
   "theorems": [
    "C75_items_bounded_partial",
    "C75_items_bounded_refuted",
    "C75_items_bounded_exact"
   ],
   "note": "Refuted for collections of items that take no octets, such as Vec<()>. Proved for all other types. _exact: an item type is excluded if and only if an item can be decoded from no octets, and with every such type two octets build as many items as the length says."
  },
  {
   "property": "C76",
   "status": "partial",
   "theorems": [
    "C76_conservation",
    "C76_same_decoder",
    "C76_no_leak_partial",
    "C76_no_leak_refuted",
    "C76_leaks",
    "C76_leak_certain"
   ],
   "note": "Refuted for Vec, arrays and SizedSlices whose items own memory: items before a failing one are leaked. Proved: each completed value is in exactly one place (result, dropped, leaked), and nothing is leaked for all other types. _leaks says what is leaked for items of any type; _certain: each excluded collection does leak on some input, if an item takes an octet and one that owns memory can be decoded."
  },
  {
   "property": "C77",
   "status": "partial",
   "theorems": [
    "C77_room_partial",
    "C77_room_refuted",
    "C77_room_certain"
   ],
   "note": "Refuted: two octets reserve 65535 items of any size before one is read. Proved: each reservation is for at most 65535 items and there are at most half as many as octets consumed. _certain: the same for every item type and every length."
  },
  {
   "property": "C78",
   "status": "partial",
   "theorems": [
    "C78_max_attained_partial",
    "C78_max_attained_refuted",
    "C78_largest",
    "C78_exact"
   ],
   "note": "Refuted for Result (its constant uses memory sizes), for enums whose largest variant has no value and for SizedStr of more than 65535 octets. Proved for all types without these (Exact). C78_largest gives the size of the largest encoding of every type without hash collections, and C78_exact says when the constant is that."
  },
  {
   "property": "C79",
   "status": "proved",
   "theorems": [
    "C79_uniform_encode",
    "C79_uniform_decode",
    "C79_array_item",
    "C79_vec_item"
   ],
   "note": "Proved for encoding and decoding, and for the place of array and vector items."
  },
  {
   "property": "C80",
   "status": "proved",
   "theorems": [
    "C80_reads_old_data",
    "C80_writes_as_before",
    "C80_old_program_refuses"
   ],
   "note": "Proved for any change of that kind anywhere inside a type: reading old data, writing as before (including failures), and old programs refusing new variants."
  },
  {
   "property": "C81",
   "status": "partial",
   "theorems": [
    "C81_equal_encode_alike_partial",
    "C81_equal_encode_alike_refuted"
   ],
   "note": "Refuted for floats (0.0 == -0.0) and for HashMap and HashSet (order of iteration). Proved for all other types, for every outcome of the call."
  },
  {
   "property": "C82",
   "status": "proved",
   "theorems": [
    "C82_as_the_compiler",
    "C82_enum_ok"
   ],
   "note": "The front end of the macros is modelled in Macro.v: discriminant expressions, repr attributes, definitions. Constant expressions are reduced to literals, negation, parentheses, addition and named constants."
  },
  {
   "property": "C83",
   "status": "partial",
   "theorems": [
    "C83_derives_partial",
    "C83_derives_refuted"
   ],
   "note": "Refuted: negative, byte and computed discriminants, and repr(C, u8) or repr(align(..)), make the macro panic. The partial theorem says exactly which definitions are refused."
  },
  {
   "property": "C84",
   "status": "partial",
   "theorems": [
    "C84_generics_partial",
    "C84_generics_refuted"
   ],
   "note": "Refuted: the defaults of parameters are copied into the header of the implementation, where the compiler refuses them. The partial theorem is exact. Bounds that the fields need are left to the author of the type and are not modelled."
  },
  {
   "property": "C85",
   "status": "partial",
   "theorems": [
    "C85_encode_partial",
    "C85_encode_refuted",
    "C85_encode_exact",
    "C85_decode"
   ],
   "note": "Refuted for LinkedList, whose encode error holds a tuple (index, error), which is no Error and has no Display. The partial theorem covers every type that does not contain LinkedList; decoding is covered in full; C85_encode_exact: the error type is an Error if and only if there is no LinkedList anywhere in the type."
  },
  {
   "property": "C86",
   "status": "proved",
   "theorems": [
    "C86_encode",
    "C86_decode",
    "C86_generic_encode",
    "C86_generic_decode",
    "C86_string"
   ],
   "note": "Errors, `source` and `Display` are modelled in ErrorText.v. A cause is one of the leaves listed in SpecText.v, with the number that makes it a failure. An unassigned discriminant keeps its number in the generic error."
  },
  {
   "property": "C87",
   "status": "proved",
   "theorems": [
    "C87_source",
    "C87_encode",
    "C87_decode",
    "C87_string",
    "C87_stream"
   ],
   "note": "Messages are modelled octet by octet, with Rust's decimal and hexadecimal formatting."
  },
  {
   "property": "C88",
   "status": "proved",
   "theorems": [
    "C88_failures",
    "C88_run"
   ],
   "note": "`Fails` of SpecErrors.v is a relation over values and octets, independent of the encoder. For types with Encode (enc_ety)."
  },
  {
   "property": "C89",
   "status": "proved",
   "theorems": [
    "C89_refusals",
    "C89_run",
    "C89_panics"
   ],
   "note": "`Rejects` of SpecErrors.v is a relation over octets, independent of the decoder. For types with Decode (dec_ety) whose enumerations the compiler accepts (EnumsOk)."
  },
  {
   "property": "C90",
   "status": "proved",
   "theorems": [
    "C90_encode",
    "C90_decode",
    "C90_size",
    "C90_same_definitions"
   ],
   "note": "The generated bodies are syntax (Codegen.v) with a meaning (RustSyntax.v: scopes, patterns, `?`, early return, match in order); running them is proved equal to `encode`, `decode` and `max_size` of the derived type."
  },
  {
   "property": "C91",
   "status": "partial",
   "theorems": [
    "C91_encode_partial",
    "C91_decode_partial",
    "C91_size_partial",
    "C91_names_refuted"
   ],
   "note": "Partial: violated by a variant called `Error` (`Self::Error` is ambiguous, a lint that is an error by default) and by constants, or constant parameters, called like a variable of the generated code (`stream`, `value0`, ..). Proved to compile in every other case, as far as names go."
  },
  {
   "property": "C92",
   "status": "proved",
   "theorems": [
    "C92_encode_depth",
    "C92_decode_depth",
    "C92_plain"
   ],
   "note": "Recursive definitions are a deep syntax (Recursive.v) unfolded to depth n; no recursion through Result, which a type with Decode cannot contain. C92_plain ties the language of recursive types to the plain one: a definition that mentions none is the struct or enum that it says."
  },
  {
   "property": "C93",
   "status": "partial",
   "theorems": [
    "C93_recursive_round_trip_partial",
    "C93_recursive_unambiguous_partial",
    "C93_recursive_round_trip_refuted",
    "C93_survivors",
    "C93_exact"
   ],
   "note": "Partial as C13 and C17 are: hash collections, SizedSlice that is not full and lossy values are excluded. The refutation is a recursive type with a HashSet, at every depth. C93_survivors says which values come back, C93_exact which types keep all their values."
  },
  {
   "property": "C94",
   "status": "partial",
   "theorems": [
    "C94_exact",
    "C94_cycle",
    "C94_decode_returns_partial",
    "C94_decode_returns_refuted"
   ],
   "note": "Violated by `struct Loop(Box<Loop>)`, which compiles. Proved whenever each cycle of definitions reads an octet (`grounded`), with an explicit bound on the depth. C94_exact decides it: decoding returns on every input if and only if the relation `enters` of SpecGrounded.v (a definition is begun before an octet is read) is well-founded; C94_cycle: on a cycle no input returns."
  },
  {
   "property": "C95",
   "status": "partial",
   "theorems": [
    "C95_exact",
    "C95_limit",
    "C95_finite",
    "C95_depth_partial",
    "C95_depth_refuted"
   ],
   "note": "Violated by every list-like type: the input of n+1 octets needs n+1 nested calls. What holds is a bound in the octets of the input: octets * (rank + 1). C95_exact says for every type how deep the nesting can be: more than n calls if and only if n definitions can be begun one inside the other (relation `calls` of SpecNesting.v: mentioned, with everything before it decodable). C95_finite: with finitely many definitions there is a limit exactly if no cycle of `calls` is reached."
  },
  {
   "property": "C96",
   "status": "proved",
   "theorems": [
    "C96_slice_lengths",
    "C96_slot_lengths",
    "C96_str_lengths"
   ],
   "note": "Holds for all three containers."
  },
  {
   "property": "C97",
   "status": "partial",
   "theorems": [
    "C97_assign",
    "C97_copy_partial",
    "C97_copy_refuted",
    "C97_make",
    "C97_exact"
   ],
   "note": "Copying more data than the capacity writes out of bounds instead (C54); everything else is exact. C97_exact: exactly for data that fits."
  },
  {
   "property": "C98",
   "status": "proved",
   "theorems": [
    "C98_range",
    "C98_chars"
   ],
   "note": "str::get, Chars and CharIndices of core are transcribed; the text is that of C60."
  },
  {
   "property": "C99",
   "status": "partial",
   "theorems": [
    "C99_containers_partial",
    "C99_containers_refuted",
    "C99_instances"
   ],
   "note": "Partial as C13 is: a SizedSlice that is not full does not come back (refutation with a user's item type). HashMap and HashSet of user types are modelled with any behaviour of the user's Eq and Hash; like other maps they do not come back. C99_instances ties the model with user types to that of the other properties."
  },
  {
   "property": "C100",
   "status": "proved",
   "theorems": [
    "C100_output",
    "C100_input",
    "C100_any",
    "C100_slot",
    "C100_slot_holds",
    "C100_slot_swapped"
   ],
   "note": "User code is an arbitrary function on streams; for Slot, any sequence of writes and replacements of the output. The assertion in the private `set_len` is what makes it hold. C100_slot_swapped: exactly what a Slot holds and counts after code that exchanged the output."
  },
  {
   "property": "C101",
   "status": "partial",
   "theorems": [
    "C101_user_size_partial",
    "C101_user_size_refuted",
    "C101_instances"
   ],
   "note": "Violated for the reasons of C35: SizedSlice leaves out its length, Result counts memory."
  },
  {
   "property": "C102",
   "status": "partial",
   "theorems": [
    "C102_exchange_partial",
    "C102_sent",
    "C102_delivered",
    "C102_exchange_refuted",
    "C102_arrived",
    "C102_exact",
    "C102_careless"
   ],
   "note": "Violated by a sender that ignores the result of `write`, as the client in the documentation of the crate does: after a failed write the Slot sends the new octets with the old length (C45). Proved for senders that send only after a successful write, with the exclusions of C13. C102_exact says for which types of messages it holds; C102_careless when a sender may ignore the result of `write`."
  },
  {
   "property": "C103",
   "status": "proved",
   "theorems": [
    "C103_written_alike",
    "C103_read_alike",
    "C103_crossing",
    "C103_content",
    "C103_alike",
    "C103_alike_writing",
    "C103_alike_inside",
    "C103_limits"
   ],
   "note": "Proved. The form of a type (SpecForm.v) leaves out names, grouping and transparent containers; C103_alike lists the types that have one form, C103_alike_inside that parts can be exchanged, C103_content that equal contents are equal values. SizedSlice and SizedStr share the form of slices and text for writing only, and hash tables have a form of their own."
  },
  {
   "property": "C104",
   "status": "proved",
   "theorems": [
    "C104_survivors",
    "C104_anywhere",
    "C104_widest",
    "C104_hash_never",
    "C104_chain"
   ],
   "note": "Proved, both ways. It makes the exclusions of C13 exact: what is read for an equal value is never shorter than what was written for it, and a length that the encoder does not write, or items that it leaves out, make it longer. C104_widest says that the equality used is coarser than `==` and than identity."
  },
  {
   "property": "C105",
   "status": "proved",
   "theorems": [
    "C105_loop",
    "C105_rev",
    "C105_take",
    "C105_collect"
   ],
   "note": "Proved for every reachable iterator, as an equivalence: the loop has this outcome and no other. What core does with the calls is transcribed in IterUse.v."
  },
  {
   "property": "C106",
   "status": "partial",
   "theorems": [
    "C106_collect_sound",
    "C106_collect_partial",
    "C106_extend_partial",
    "C106_skip_partial",
    "C106_skip_fold_partial",
    "C106_step_by_refuted",
    "C106_refuted"
   ],
   "note": "Violated. size_hint subtracts the position from the number of items left, unchecked, and nth reads the wrong cell (C58); collect calls size_hint after next. C106_collect_partial is exact: a slice of one item, or of more than four (eight if of one octet, one if over 1024), is undefined behaviour to collect. C106_skip_partial: the first item comes twice. step_by never works. What is collected is never wrong (C106_collect_sound), and extending a Vec with enough capacity is right."
  },
  {
   "property": "C107",
   "status": "partial",
   "theorems": [
    "C107_once_partial",
    "C107_kept_partial",
    "C107_defined_partial",
    "C107_unchanged",
    "C107_same",
    "C107_order",
    "C107_decode_order",
    "C107_nth_order",
    "C107_refuted"
   ],
   "note": "Violated in two ways. nth calls the destructors of skipped items before it moves the position: if one panics, the items it had released are handed out again. And what an interrupted call had made is never released. C107_once_partial is the accounting of all items over all programs without nth, with a panic at any call; C107_kept_partial says which calls can lose items; C107_unchanged is about all calls."
  },
  {
   "property": "C108",
   "status": "proved",
   "theorems": [
    "C108_reads_old",
    "C108_reads_head",
    "C108_crossing",
    "C108_written",
    "C108_enum",
    "C108_reordered",
    "C108_removed",
    "C108_inside",
    "C108_wider",
    "C108_longer"
   ],
   "note": "Containers whose items are read by rules of their own (HashMap, HashSet, SizedSlice) must be equal in both versions; C80 covers added variants inside of those."
  },
  {
   "property": "C109",
   "status": "partial",
   "theorems": [
    "C109_slice",
    "C109_same",
    "C109_parts",
    "C109_calls",
    "C109_needed",
    "C109_str_partial",
    "C109_str_calls_partial",
    "C109_str_refuted",
    "C109_slot",
    "C109_asserted"
   ],
   "note": "Holds except for SizedStr::from_utf8_unchecked, whose contract does not mention the capacity: a longer text is written beyond the buffer unless debug assertions are on (C109_str_refuted); the _partial theorems ask for texts that fit. For set_len and from_raw_parts the contract is read as: the cells before the length hold items. into_raw_parts of a SizedStr is for those whose buffer is initialised (C64)."
  },
  {
   "property": "C110",
   "status": "proved",
   "theorems": [
    "C110_encode",
    "C110_decode"
   ],
   "note": "By induction on error values; characters outside the word separate its occurrences."
  },
  {
   "property": "C111",
   "status": "partial",
   "theorems": [
    "C111_encode",
    "C111_decode",
    "C111_tuple_partial",
    "C111_tuple_decode_partial",
    "C111_map_partial",
    "C111_map_decode_partial",
    "C111_result_partial",
    "C111_result_decode_partial",
    "C111_refuted"
   ],
   "note": "Proved as an equivalence for every container with one parameter. False for tuples, maps and results: their bounds ask for one error type, so HashMap<String, u32> is neither Encode nor Decode and (u8, usize) is not Encode; the partial theorems give the exact condition. Bounds such as Copy for Cell and Eq + Hash for keys are outside the model."
  },
  {
   "property": "C112",
   "status": "partial",
   "theorems": [
    "C112_slice",
    "C112_str",
    "C112_slice_text",
    "C112_str_text",
    "C112_parse",
    "C112_slot_partial",
    "C112_slot_text",
    "C112_slot_apart",
    "C112_octet",
    "C112_slot_refuted"
   ],
   "note": "Holds for SizedSlice and SizedStr. Violated by Slot: `write!(f, \"{:?}\", …)` drops the options (C112_slot_refuted); C112_slot_partial is for plain `{:?}`, and C112_slot_text says what it prints in general. How core formats integers, slices and str is modelled in Format.v; `<str as Debug>` and the Debug of items are arbitrary functions."
  },
  {
   "property": "C113",
   "status": "partial",
   "theorems": [
    "C113_slice",
    "C113_each_mut",
    "C113_iter",
    "C113_str",
    "C113_slot_exact",
    "C113_slot_partial",
    "C113_slot_refuted"
   ],
   "note": "Violated by Slot: as_mut_slice, AsMut, BorrowMut, DerefMut and IndexMut reach the whole buffer, as_slice, AsRef, Borrow, Deref and Index only the octets marked as written. So slot[k] = b can succeed and slot[k] then panic, and slot.reverse() brings in octets that were never marked (C113_slot_refuted). C113_slot_exact: the two views are the same exactly when the slot is full. C113_slot_partial: what does hold. The other three containers satisfy it."
  },
  {
   "property": "C114",
   "status": "proved",
   "theorems": [
    "C114_encode",
    "C114_decode",
    "C114_size",
    "C114_wire_format",
    "C114_round_trip"
   ],
   "note": "The text of the implementations is held as syntax trees that tools/rust2v.py writes (SourceEncode.v, SourceDecode.v, SourceSizes.v, SourceSizedSlice.v, SourceSizedStr.v; `rust2v.py --check` compares them with /repo). SourceMeaning.v gives the trees a meaning; the theorems say that running them is [encode], [decode] and [max_size], so that every other theorem is about the text. Excluded by `of_rust`: tuples of no or more than twelve members and atomics of other types, which are not types of Rust programs that use the crate; by `sizes_fit`: constants of 2^64 or more. The bodies that the derives generate are not among the trees: they are the subject of C90."
  },
  {
   "property": "C115",
   "status": "proved",
   "theorems": [
    "C115_display",
    "C115_source",
    "C115_generic_encode",
    "C115_generic_borrow",
    "C115_generic_decode",
    "C115_encode_errors",
    "C115_decode_errors"
   ],
   "note": "SourceErrors.v and SourceDiscriminant.v are written by tools/rust2v.py from oct/src/error and oct/src/primitive_discriminant. SourceText.v gives meaning to the trees, including format strings. SpecErrorSource.IsValue states which Rust value an error of the model is. Left out: errors of LinkedList, which hold a tuple and are neither Display nor Error; conversions to Infallible, of which there are no values."
  },
  {
   "property": "C116",
   "status": "proved",
   "theorems": [
    "C116_encode",
    "C116_decode",
    "C116_sized",
    "C116_errors_apart",
    "C116_convert_encode",
    "C116_convert_decode",
    "C116_errors",
    "C116_asked"
   ],
   "note": "The headers are those that tools/rust2v.py writes to SourceEncode.v, SourceDecode.v, SourceSizes.v, SourceErrors.v and SourceDiscriminant.v; SourceHeaders.v searches them as rustc does (find the implementation, check its bounds, normalise its associated type). Traits of core that the model leaves aside (Copy, ToOwned, Borrow, Eq, Hash, BuildHasher, Default, Debug) are taken to be implemented. C116_asked lists all places where headers ask for them. Sized is left aside as well: see C129, by which Cow<str>, Cow<CStr> and Cow<[T]> are decodable here but not in Rust."
  },
  {
   "property": "C117",
   "status": "partial",
   "theorems": [
    "C117_constant",
    "C117_sized_partial",
    "C117_sized_refuted",
    "C117_asked"
   ],
   "note": "Violated: `SizedEncode for Result` asks for the same error type of both parts where Encode asks for errors that convert, so that Result<S, u8> with S derived can be encoded but is not SizedEncode; PhantomPinned has no implementation at all. Proved: every type that is SizedEncode is Encode and has its constant, and an encodable type of parts with constants is SizedEncode exactly if it contains no Result with parts of different errors. C117_asked lists what else the headers ask of parameters."
  },
  {
   "property": "C118",
   "status": "proved",
   "theorems": [
    "C118_output_new",
    "C118_output_capacity",
    "C118_output_position",
    "C118_output_remaining",
    "C118_output_as_ptr",
    "C118_output_write",
    "C118_output_as_slice",
    "C118_output_as_ref",
    "C118_output_borrow",
    "C118_output_eq",
    "C118_output_eq_slice",
    "C118_input_new",
    "C118_input_capacity",
    "C118_input_position",
    "C118_input_remaining",
    "C118_input_read",
    "C118_input_read_into",
    "C118_slot_with_capacity",
    "C118_slot_new",
    "C118_slot_from_raw_parts",
    "C118_slot_capacity",
    "C118_slot_len",
    "C118_slot_is_empty",
    "C118_slot_is_full",
    "C118_slot_as_ptr",
    "C118_slot_as_slice",
    "C118_slot_as_mut_slice",
    "C118_slot_set_len",
    "C118_slot_set_len_unchecked",
    "C118_slot_copy_from_slice",
    "C118_slot_write",
    "C118_slot_read",
    "C118_slot_index",
    "C118_slot_index_range",
    "C118_slot_index_mut",
    "C118_slot_index_mut_range",
    "C118_slot_eq",
    "C118_slot_fmt",
    "C118_iter_new",
    "C118_iter_as_slice",
    "C118_iter_next",
    "C118_iter_next_back",
    "C118_iter_size_hint",
    "C118_iter_nth",
    "C118_iter_clone",
    "C118_sized_capacity",
    "C118_sized_len",
    "C118_sized_is_empty",
    "C118_sized_is_full",
    "C118_sized_set_len",
    "C118_sized_as_ptr",
    "C118_sized_as_slice",
    "C118_sized_as_slice_out",
    "C118_sized_iter",
    "C118_sized_into_raw_parts",
    "C118_sized_from_raw_parts",
    "C118_sized_into_iter",
    "C118_sized_fmt",
    "C118_sized_default",
    "C118_sized_eq",
    "C118_sized_eq_slice",
    "C118_sized_cmp",
    "C118_sized_partial_cmp",
    "C118_sized_partial_cmp_slice",
    "C118_sized_index",
    "C118_sized_index_range",
    "C118_sized_copy_from_slice",
    "C118_sized_new",
    "C118_sized_clone",
    "C118_sized_hash",
    "C118_sized_boxed",
    "C118_sized_from_array",
    "C118_sized_from_iter",
    "C118_sized_each",
    "C118_str_capacity",
    "C118_str_len",
    "C118_str_is_empty",
    "C118_str_is_full",
    "C118_str_as_ptr",
    "C118_str_as_bytes",
    "C118_str_as_str",
    "C118_str_views",
    "C118_str_chars",
    "C118_str_eq",
    "C118_str_eq_str",
    "C118_str_cmp",
    "C118_str_partial_cmp",
    "C118_str_partial_cmp_str",
    "C118_str_hash",
    "C118_str_index_range",
    "C118_str_from_raw_parts",
    "C118_str_unchecked",
    "C118_str_new",
    "C118_str_from_utf8",
    "C118_str_from_char",
    "C118_str_into_raw_parts",
    "C118_str_into_bytes",
    "C118_str_boxed",
    "C118_str_from_iter"
   ],
   "note": "The functions are trees that tools/rust2v.py writes from /repo (SourceOutput.v, SourceInput.v, SourceSlot.v, SourceSizedIter.v, SourceSizedSlice.v, SourceSizedStr.v). SourceMemory.v runs them: structs and buffers are objects in memory, cells may be uninitialised, pointers carry the cells they may be used for, and undefined behaviour is an outcome. SpecMemory.v says how an object of a model lies in memory. One theorem per function; functions that only forward are in the theorem of what they forward to. A function that is const-evaluable or generic over views is run at the instance the crate uses. Every function of these files is in one of the theorems. Derived implementations (Clone and Default of SizedStr) have no text."
  },
  {
   "property": "C119",
   "status": "proved",
   "theorems": [
    "C119_derive",
    "C119_encode",
    "C119_decode",
    "C119_size",
    "C119_panics"
   ],
   "note": "The trees of SourceMacros.v are written by tools/rust2v.py from oct-macros/src, templates of `quote!` included; MacroRun.v runs them. C119_derive is token by token, for every definition; C119_encode, C119_decode and C119_size join it with C90, C119_panics with C82-C84. A type of the model has one spelling."
  },
  {
   "property": "C120",
   "status": "proved",
   "theorems": [
    "C120_encode",
    "C120_inhabited",
    "C120_decode"
   ],
   "note": "[fallible] and [refusable] decide it from the type alone; both directions are proved. C67_infallible_decode_exact is the same for the types of C67."
  },
  {
   "property": "C121",
   "status": "proved",
   "theorems": [
    "C121_containers",
    "C121_streams",
    "C121_errors",
    "C121_method_errors",
    "C121_parts"
   ],
   "note": "From the text of the type definitions. C121_containers and C121_parts are exact (both directions); C121_errors is for every supported type, by induction over the error type; Output is not UnwindSafe, which C121_streams states. Trusted: the rules of core for references, Box, MaybeUninit, PhantomData, and that Infallible and BorrowError have the traits."
  },
  {
   "property": "C122",
   "status": "proved",
   "theorems": [
    "C122_output",
    "C122_input",
    "C122_iter",
    "C122_slot",
    "C122_sized"
   ],
   "note": "Each call runs the text of the function (Source*.v, generated from /repo) on the memory model of C118; between the calls everything else in memory may change. What `encode` and `decode` of the slot's type do is taken from the model (hypotheses encodes and decodes, met by the sample context), reading back has the exclusions of C13. The results are compared with small specifications: verdicts/kept, served, deque (SpecHistory.v, SpecContainers.v). Lengths below 2^64. For SizedSlice the specification is list_step/list_history (SpecHistorySized.v): plain lists with a capacity; `Clone` of the items is any total function, and where a list has no answer (too much data for copy_from_slice, C54) the theorem says that the text is undefined there."
  },
  {
   "property": "C123",
   "status": "partial",
   "theorems": [
    "C123_refuted",
    "C123_partial",
    "C123_exact",
    "C123_faults",
    "C123_adds",
    "C123_slot"
   ],
   "note": "Violated: the names resolve exactly when both alloc and std are on (C123_exact), so the crate does not build with no_std, nor with one of the two alone. C123_faults lists each path that does not resolve and in which builds: SystemTimeDecodeError and CStringDecodeError imported without their conditions (decode/decode/mod.rs:26, generic_decode_error.rs:24), the variant NullString declared under std but used without it and imported under alloc (generic_decode_error.rs:34, 56, 85, 147), and std::sync::atomic in the implementations for atomics. SourceBuild.v is written by tools/cfg2v.py from the text. Only the resolution of names is modelled: not types, nor visibility beyond private imports; what stands under cfg(test) is left out."
  },
  {
   "property": "C124",
   "status": "partial",
   "theorems": [
    "C124_refuted",
    "C124_write",
    "C124_read",
    "C124_read_into",
    "C124_partial"
   ],
   "note": "Violated: Output::write, Input::read and Input::read_into are documented to panic, but return an error in exactly those cases and never panic (C124_refuted; C124_write, C124_read and C124_read_into say for every stream what they do instead). Slot::set_len and Slot::copy_from_slice panic exactly when documented (C124_partial). The documented panic of Encode::encode is C09; panics of decoding, which no documentation mentions, are C21."
  },
  {
   "property": "C125",
   "status": "proved",
   "theorems": [
    "C125_once",
    "C125_kept",
    "C125_only",
    "C125_outcome",
    "C125_same",
    "C125_returns"
   ],
   "note": "Proved. Simplifications, stated in Lazy.v: a closure is what it returns, or a panic, and has no other effect; one that looks at its own cell (a panic or a deadlock in std) is not modelled. Memory ordering is not modelled: a LazyLock is computed under std's own lock, so looking at it is one step."
  },
  {
   "property": "C126",
   "status": "partial",
   "theorems": [
    "C126_left_as_found_partial",
    "C126_mutex_exact",
    "C126_waits",
    "C126_left_as_found_refuted"
   ],
   "note": "Refuted: a Mutex gets poisoned if the output is too small for its contents, as the call then panics while it holds the lock. Proved: everything else is as before, and a Mutex gets poisoned only if the call panics and the Mutex is part of the value; C126_mutex_exact says exactly when, and C126_waits what a call can wait for. Other threads do nothing meanwhile (see C66 for those); a call made while the thread is unwinding is not modelled; with panic=abort nothing is left to be observed."
  },
  {
   "property": "C127",
   "status": "proved",
   "theorems": [
    "C127_no_deadlock",
    "C127_ends",
    "C127_outcome"
   ],
   "note": "Proved. Only the encoders act (C66 has other threads that store, without deadlock); std's RwLock may also make readers wait for a waiting writer, of which there is none here. C127_cyclic_case: with a Mutex that contains itself a single thread waits forever."
  },
  {
   "property": "C128",
   "status": "partial",
   "theorems": [
    "C128_ends_partial",
    "C128_model",
    "C128_ends_refuted"
   ],
   "note": "Violated where a cycle writes nothing: C128_ends_refuted, a map inserted into itself, for which no depth of calls is enough. C128_ends_partial bounds the depth for definitions of which every cycle writes an octet. C128_model relates the encoders with calls to those of C126 and C93. Depth, not time, is what is bounded; at each depth a call does finitely much."
  },
  {
   "property": "C129",
   "status": "partial",
   "theorems": [
    "C129_cow_partial",
    "C129_cow_refuted",
    "C129_exact",
    "C129_repair",
    "C129_encode",
    "C129_encode_exact"
   ],
   "note": "Violated for str, CStr and slices: C129_cow_refuted, for each of them; C129_cow_partial proves it of all other types, C129_exact that a type is decodable exactly if its other bounds are met and it has no such Cow in it, C129_repair that `?Sized` is all that is missing, C129_encode and C129_encode_exact that the encoders have it wherever Rust can make use of it. Which parameters have `?Sized` is read from the source (SourceUnsized.v). The model's decoders cover Cows of str, CStr and slices all the same (dec_ety), so that other claims about Cows say more than today's Rust programs can use."
  }
 ]
}