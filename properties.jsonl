{"id": "C01", "title": "Output records exactly what was written", "statement": "After any sequence of write calls on an Output made over a buffer, as_slice is the concatenation, in call order, of the data of the calls that returned Ok; position is its length, capacity is the buffer length, remaining is their difference, and the part of the buffer after position still holds what it held before.", "quantifier": "every buffer, every finite history of writes (successful and failing)", "why_tests_cant": "histories are unbounded and each write depends on the position left by all earlier ones", "anchors": ["oct/src/encode/output/mod.rs: Output::write, as_slice, position, remaining, capacity"]}
{"id": "C02", "title": "A write that does not fit changes nothing and says why", "statement": "Output::write(data) returns Err exactly when data is longer than remaining; then the error carries the capacity, the position and the length of data, and neither the buffer nor the position has changed.", "quantifier": "every stream state and every data", "why_tests_cant": "boundary must be right at every position of every buffer size", "anchors": ["oct/src/encode/output/mod.rs: Output::write", "oct/src/error/output_error.rs"]}
{"id": "C03", "title": "Input hands out consecutive pieces of its buffer", "statement": "Over any sequence of read and read_into calls on an Input, the pieces returned by the successful calls, concatenated, are exactly the first position bytes of the buffer; a call fails exactly when it asks for more than remaining, and then reports capacity, position and count and leaves the stream as it was; the buffer is never changed.", "quantifier": "every buffer and every finite history of reads", "why_tests_cant": "unbounded histories and sizes", "anchors": ["oct/src/decode/input/mod.rs: Input::read, read_into, position, remaining, capacity", "oct/src/error/input_error.rs"]}
{"id": "C04", "title": "Outputs compare by their written part", "statement": "Two Outputs (or an Output and a byte slice) are equal exactly when the bytes written so far are equal, whatever the sizes of the buffers and whatever lies beyond the position.", "quantifier": "every pair of stream states", "why_tests_cant": "must hold for all unwritten tails", "anchors": ["oct/src/encode/output/mod.rs: PartialEq, AsRef, Borrow"]}
{"id": "C05", "title": "Numbers are little-endian two's complement, bit for bit", "statement": "Encoding any integer, float, char, NonZero or atomic of width w writes exactly w bytes, byte i holding bits 8i to 8i+7 of the value's two's-complement (or IEEE bit pattern) representation; decoding those bytes gives the value back, including every NaN payload.", "quantifier": "all widths 8 to 128 bits, all values", "why_tests_cant": "2^128 values", "anchors": ["oct/src/encode/encode/mod.rs: impl_numeric", "oct/src/decode/decode/mod.rs: impl_numeric"]}
{"id": "C06", "title": "The wire format is the documented one for every type", "statement": "For every supported type (however deeply nested) a value that encodes successfully is written as the documented chain of its parts: sequences as a 16-bit length and their items, arrays and tuples and structs as bare items in order, options and results as a sign octet and payload, enums as discriminant and fields, and so on.", "quantifier": "every type built from the supported constructors, every value of it", "why_tests_cant": "types nest without bound", "anchors": ["oct/src/encode/encode/mod.rs", "oct/src/lib.rs", "oct-macros/src/impls/encode_struct.rs", "oct-macros/src/impls/encode_enum.rs"]}
{"id": "C07", "title": "Encoding only touches the bytes it appends", "statement": "Whatever the outcome (success, error or panic), encode leaves the bytes before the stream position it started from, and the bytes after the position it ends at, exactly as they were, never moves the position back and never beyond the capacity.", "quantifier": "every type, value, buffer, starting position and outcome", "why_tests_cant": "aliasing of earlier output is a for-all-positions claim", "anchors": ["oct/src/encode/encode/mod.rs", "oct/src/encode/output/mod.rs"]}
{"id": "C08", "title": "The bytes of a value do not depend on where it is encoded", "statement": "If a value encodes successfully into one Output it appends the same bytes and succeeds in every other Output that has room for them, whatever that buffer holds, however big it is and wherever its position is.", "quantifier": "every type, value and pair of outputs", "why_tests_cant": "quantifies over all contexts", "anchors": ["oct/src/encode/encode/mod.rs"]}
{"id": "C09", "title": "Encoding panics exactly when the output is too small", "statement": "Encoding a value panics if and only if the value's (possibly error-terminated) encoding needs more bytes than remain, and never for another reason; the only exception is a SystemTime at the lowest whole second when arithmetic overflow checks are on.", "quantifier": "every type, every valid value, every output", "why_tests_cant": "off-by-one at every size", "anchors": ["oct/src/encode/encode/mod.rs: impl_numeric, SystemTime"]}
{"id": "C10", "title": "Encoding errs exactly on unrepresentable values", "statement": "Given enough room, encode returns Ok exactly when every usize/isize in the value fits u16/i16, every collection length fits u16, every enum discriminant is representable in its encoded representation and no RefCell is mutably borrowed; otherwise it returns Err.", "quantifier": "every type and every valid value", "why_tests_cant": "nested values without bound", "anchors": ["oct/src/encode/encode/mod.rs: usize, isize, RefCell, [T]", "oct-macros/src/impls/encode_enum.rs"]}
{"id": "C11", "title": "Collection errors name the failing item", "statement": "When encoding a sequence or array fails on an item, the error is BadItem with the index of the first item that cannot be encoded and that item's own error, and the bytes of exactly the items before it (and what the item wrote before failing) have been appended; when decoding fails on an item the index is the number of items decoded before it.", "quantifier": "every item type, every length and failing position", "why_tests_cant": "unbounded lengths", "anchors": ["oct/src/encode/encode/mod.rs: [T], [T; N], LinkedList", "oct/src/decode/decode/mod.rs: Vec, [T; N], LinkedList, HashMap, HashSet", "oct/src/error/item_encode_error.rs"]}
{"id": "C12", "title": "usize and isize travel as u16 and i16 or are refused", "statement": "Encoding a usize succeeds iff it is at most 65535 and an isize iff it lies in -32768..=32767; the encoding is two bytes; a refusal carries the value and writes nothing; decoding never fails given two bytes and returns the value encoded.", "quantifier": "all 2^64 values", "why_tests_cant": "range of values", "anchors": ["oct/src/encode/encode/mod.rs: usize, isize", "oct/src/decode/decode/mod.rs: usize, isize"]}
{"id": "C13", "title": "Decoding inverts encoding", "statement": "For every type that implements both traits and every valid value that encodes successfully, decoding the bytes written yields an equal value.", "quantifier": "every type and value; any bytes before and after", "why_tests_cant": "types and values nest without bound", "anchors": ["oct/src/encode/encode/mod.rs", "oct/src/decode/decode/mod.rs"]}
{"id": "C14", "title": "Decoding consumes exactly what encoding produced, so values chain", "statement": "Encoding any sequence of values (of any mix of types) one after another into one Output, and then decoding the same sequence of types from an Input over the written bytes, yields the values in order and ends with the Input position equal to the Output position, whatever follows.", "quantifier": "every list of (type, value) pairs, every tail", "why_tests_cant": "unbounded sequences", "anchors": ["oct/src/encode/encode/mod.rs", "oct/src/decode/decode/mod.rs", "oct/src/lib.rs"]}
{"id": "C15", "title": "Decoding depends only on the bytes it consumes", "statement": "If decode returns (Ok or Err) having consumed k bytes, it returns the same on any Input whose next k bytes are the same, wherever they are in the buffer and whatever surrounds them.", "quantifier": "every type, every input, every context", "why_tests_cant": "all contexts", "anchors": ["oct/src/decode/decode/mod.rs", "oct/src/decode/input/mod.rs"]}
{"id": "C16", "title": "Truncated data is never mistaken for a value", "statement": "If decode returns (Ok or Err) having consumed k bytes, then on the same bytes cut anywhere before the k-th it panics on the short read, and never returns a value or an error.", "quantifier": "every type, every input, every truncation point", "why_tests_cant": "every cut point of every encoding", "anchors": ["oct/src/decode/decode/mod.rs", "oct/src/decode/input/mod.rs"]}
{"id": "C17", "title": "Encodings are unambiguous", "statement": "Two values of the same type whose encodings are equal are equal, and no value's encoding is a proper prefix of another's.", "quantifier": "every type (that round-trips) and pairs of values", "why_tests_cant": "pairs of values", "anchors": ["oct/src/encode/encode/mod.rs", "oct/src/decode/decode/mod.rs"]}
{"id": "C18", "title": "Decoded values are valid values of their type", "statement": "A successful decode always yields a value that satisfies the type's invariants: char is a Unicode scalar value, strings are UTF-8, C strings have no interior null, NonZero is not zero, lengths are within capacity, Duration nanoseconds are below one second.", "quantifier": "every type, every input bytes", "why_tests_cant": "arbitrary untrusted input", "anchors": ["oct/src/decode/decode/mod.rs", "oct/src/sized_str/code.rs", "oct/src/sized_slice/code.rs"]}
{"id": "C19", "title": "char decoding accepts exactly the Unicode scalar values", "statement": "Decoding a char from four bytes succeeds exactly when the 32-bit number is a Unicode scalar value and otherwise returns an error carrying the number.", "quantifier": "all 2^32 code points", "why_tests_cant": "2^32 inputs", "anchors": ["oct/src/decode/decode/mod.rs: char", "oct/src/error/char_decode_error.rs"]}
{"id": "C20", "title": "Only one encoding per value is accepted", "statement": "If decoding some bytes succeeds and consumes all of them then encoding the result gives the same bytes back.", "quantifier": "every type, every input", "why_tests_cant": "arbitrary input", "anchors": ["oct/src/decode/decode/mod.rs", "oct/src/encode/encode/mod.rs"]}
{"id": "C21", "title": "Decoding panics only for the documented reasons", "statement": "Decoding never panics except when the input is too short, when a Duration's seconds overflow after carrying, or when the type is Infallible; in particular no decoded length, discriminant or text can make it index out of bounds or overflow.", "quantifier": "every type, every input", "why_tests_cant": "arbitrary untrusted input", "anchors": ["oct/src/decode/decode/mod.rs", "oct/src/sized_str/code.rs", "oct/src/sized_slice/code.rs"]}
{"id": "C22", "title": "Decoding moves forward within the buffer", "statement": "Whatever the outcome, decode leaves the buffer unchanged and the position between where it started and the capacity.", "quantifier": "every type, input and outcome", "why_tests_cant": "arbitrary input", "anchors": ["oct/src/decode/decode/mod.rs", "oct/src/decode/input/mod.rs"]}
{"id": "C23", "title": "bool, Option and Result read any non-zero sign octet as true", "statement": "Decoding a bool consumes one byte and is true exactly when the byte is not zero; an Option is Some/None and a Result is Err/Ok on the same rule followed by the payload.", "quantifier": "every input", "why_tests_cant": "all payload types", "anchors": ["oct/src/decode/decode/mod.rs: bool, Option, Result"]}
{"id": "C24", "title": "NonZero decoding accepts exactly the non-zero values", "statement": "Decoding a NonZero of any width consumes its width and succeeds exactly when some byte is not zero, yielding the number.", "quantifier": "all widths and values", "why_tests_cant": "2^128 inputs", "anchors": ["oct/src/decode/decode/mod.rs: NonZero"]}
{"id": "C25", "title": "String decoding accepts exactly UTF-8 and locates the first defect", "statement": "Decoding a String succeeds exactly when the declared number of bytes is well-formed UTF-8 (a concatenation of encodings of Unicode scalar values); otherwise the error's index is the length of the longest well-formed prefix and its value is the byte there.", "quantifier": "all byte strings up to 65535 bytes", "why_tests_cant": "all byte strings", "anchors": ["oct/src/decode/decode/mod.rs: String", "oct/src/error/utf8_error.rs"]}
{"id": "C26", "title": "CString decoding accepts exactly null-free bytes", "statement": "Decoding a CString succeeds exactly when no byte of the declared contents is zero; otherwise the error carries the index of the first zero.", "quantifier": "all byte strings", "why_tests_cant": "all byte strings", "anchors": ["oct/src/decode/decode/mod.rs: CString", "oct/src/error/c_string_decode_error.rs"]}
{"id": "C27", "title": "Unassigned discriminants are refused with their value", "statement": "Decoding Bound, IpAddr or SocketAddr succeeds only when the discriminant octet is an assigned one (0, 1, 2; 4, 6; 4, 6), and for every other octet returns UnassignedDiscriminant with that octet having consumed only it.", "quantifier": "all octets, all payload types and inputs", "why_tests_cant": "generic payloads", "anchors": ["oct/src/decode/decode/mod.rs: Bound, IpAddr, SocketAddr"]}
{"id": "C28", "title": "Duration decoding carries nanoseconds and loses no time", "statement": "Decoding a Duration from any twelve bytes yields exactly secs*10^9+nanos nanoseconds in normal form, or panics exactly when that does not fit a u64 number of seconds.", "quantifier": "all 2^96 inputs", "why_tests_cant": "2^96 inputs", "anchors": ["oct/src/decode/decode/mod.rs: Duration", "oct/src/encode/encode/mod.rs: Duration"]}
{"id": "C29", "title": "SystemTime is encoded as the nearest whole second", "statement": "Encoding a SystemTime writes the i64 nearest to its UNIX timestamp, and decoding gives the time at that second, so times at whole seconds round-trip.", "quantifier": "all times representable by the platform", "why_tests_cant": "2^64 seconds times 10^9 nanoseconds", "anchors": ["oct/src/encode/encode/mod.rs: SystemTime", "oct/src/decode/decode/mod.rs: SystemTime"]}
{"id": "C30", "title": "IP addresses are written in the documented octet order", "statement": "Ipv4Addr and Ipv6Addr are encoded with the octet order the documentation states (big-endian), and decode back to the same address.", "quantifier": "all addresses", "why_tests_cant": "2^128 addresses", "anchors": ["oct/src/encode/encode/mod.rs: Ipv4Addr, Ipv6Addr, IpAddr, SocketAddr"]}
{"id": "C31", "title": "HashMap and HashSet round-trip", "statement": "Encoding a HashMap or HashSet in whatever iteration order and decoding the result yields an equal map or set; decoding a length-prefixed list of entries yields the map in which the last entry of a key wins.", "quantifier": "all maps, all iteration orders", "why_tests_cant": "iteration order is arbitrary", "anchors": ["oct/src/encode/encode/mod.rs: HashMap, HashSet", "oct/src/decode/decode/mod.rs: HashMap, HashSet"]}
{"id": "C32", "title": "Smart pointers and cells are transparent on the wire", "statement": "Wrapping a value in &T, &mut T, Box, Rc, Arc, Cell, Cow, RefCell (not mutably borrowed), Mutex, RwLock (poisoned or not), LazyCell, LazyLock, Wrapping, Saturating, an atomic or a 1-tuple does not change the bytes or the outcome, and decoding the wrapper consumes the same bytes and yields the wrapped value.", "quantifier": "every type and value, every nesting", "why_tests_cant": "all nestings", "anchors": ["oct/src/encode/encode/mod.rs", "oct/src/decode/decode/mod.rs"]}
{"id": "C33", "title": "DecodeBorrowed types decode any encoding of the borrowed type", "statement": "If Owned implements DecodeBorrowed<B> then decoding the encoding of any value of B as Owned succeeds and yields the corresponding value: Vec from slices, String from str, CString from CStr, Box/Rc/Arc from T, SizedSlice from slices, SizedStr from str.", "quantifier": "all values of B", "why_tests_cant": "all lengths", "anchors": ["oct/src/decode/decode_borrowed/mod.rs", "oct/src/sized_slice/code.rs", "oct/src/sized_str/code.rs"]}
{"id": "C34", "title": "A decoded collection has exactly the declared number of items, at most 65535", "statement": "A successful decode of Vec, LinkedList, String or CString yields exactly as many items as the 16-bit length says, so never more than 65535; an array yields exactly N.", "quantifier": "every item type and input", "why_tests_cant": "untrusted lengths", "anchors": ["oct/src/decode/decode/mod.rs: Vec, LinkedList, String, CString, [T; N]"]}
{"id": "C35", "title": "MAX_ENCODED_SIZE bounds every encoding", "statement": "For every type implementing SizedEncode and every valid value, encode never writes more than MAX_ENCODED_SIZE bytes.", "quantifier": "every SizedEncode type, every value", "why_tests_cant": "max over all values of a type", "anchors": ["oct/src/encode/sized_encode/mod.rs", "oct/src/sized_slice/code.rs", "oct/src/sized_str/code.rs", "oct-macros/src/impls/sized_encode_struct.rs", "oct-macros/src/impls/sized_encode_enum.rs"]}
{"id": "C36", "title": "MAX_ENCODED_SIZE bounds what decoding consumes", "statement": "For every type implementing SizedEncode, decode never consumes more than MAX_ENCODED_SIZE bytes.", "quantifier": "every SizedEncode type, every input", "why_tests_cant": "arbitrary input", "anchors": ["oct/src/encode/sized_encode/mod.rs", "oct/src/decode/decode/mod.rs", "oct/src/sized_str/code.rs"]}
{"id": "C37", "title": "A derived struct is its fields in declaration order", "statement": "Encoding a derived struct writes the concatenation of the encodings of its fields in declaration order with nothing in between, and decoding reads them in the same order.", "quantifier": "every list of field types and values", "why_tests_cant": "arbitrary numbers of fields", "anchors": ["oct-macros/src/impls/encode_struct.rs", "oct-macros/src/impls/decode_struct.rs"]}
{"id": "C38", "title": "Derived enums use the discriminants the compiler assigns", "statement": "The discriminant the macro assigns to each variant is the explicit one if given, else one more than the previous variant's, else zero; assignment fails only on u128 overflow.", "quantifier": "every list of variants", "why_tests_cant": "arbitrary lists", "anchors": ["oct-macros/src/discriminants/mod.rs"]}
{"id": "C39", "title": "Derived enums decode to the encoded variant and refuse all others", "statement": "Encoding variant i writes its discriminant in the enum's representation followed by its fields; decoding maps exactly the assigned discriminants to their variants and refuses every other with UnassignedDiscriminant carrying the number.", "quantifier": "every enum definition, value and input", "why_tests_cant": "arbitrary definitions", "anchors": ["oct-macros/src/impls/encode_enum.rs", "oct-macros/src/impls/decode_enum.rs", "oct-macros/src/repr/mod.rs"]}
{"id": "C40", "title": "The derived MAX_ENCODED_SIZE is the largest variant", "statement": "For a derived struct it is the sum of the fields' sizes; for an enum with variants the size of the representation plus the largest sum over variants; so it is an upper bound, and it is attained when the fields attain theirs.", "quantifier": "every definition", "why_tests_cant": "arbitrary definitions", "anchors": ["oct-macros/src/impls/sized_encode_struct.rs", "oct-macros/src/impls/sized_encode_enum.rs"]}
{"id": "C41", "title": "Generic errors keep the root cause", "statement": "When an error of a field is converted to GenericEncodeError or GenericDecodeError, the variant and payload are those of the innermost cause, through any depth of collections, items and enums.", "quantifier": "every nested error", "why_tests_cant": "arbitrary depth", "anchors": ["oct/src/error/generic_encode_error.rs", "oct/src/error/generic_decode_error.rs"]}
{"id": "C42", "title": "PrimitiveDiscriminant::to_u128 zero-extends", "statement": "Converting a discriminant of any primitive type to u128 zero-extends its bit pattern.", "quantifier": "all primitive types and values", "why_tests_cant": "all values", "anchors": ["oct/src/primitive_discriminant/mod.rs"]}
{"id": "C43", "title": "A Slot never marks more bytes than it has", "statement": "Through any sequence of safe Slot operations, including failed and panicking ones, len stays at most capacity, capacity never changes and as_slice has length len.", "quantifier": "every history of safe operations", "why_tests_cant": "unbounded histories", "anchors": ["oct/src/slot/mod.rs"]}
{"id": "C44", "title": "A written Slot holds exactly the encoding and reads it back", "statement": "After a successful Slot::write(value), as_slice is exactly the encoding of value and read returns an equal value, whatever the slot held before.", "quantifier": "every type, value, and prior history", "why_tests_cant": "histories", "anchors": ["oct/src/slot/mod.rs: write, read"]}
{"id": "C45", "title": "A failed Slot::write leaves the slot as it was", "statement": "If Slot::write returns an error or panics, len and the contents are those from before the call.", "quantifier": "every type, value, prior contents", "why_tests_cant": "every failing point", "anchors": ["oct/src/slot/mod.rs: write"]}
{"id": "C46", "title": "Slot::read sees only the marked bytes", "statement": "Slot::read passes only the first len bytes to the decoder, so its outcome does not depend on the rest of the buffer.", "quantifier": "every type and slot state", "why_tests_cant": "all stale contents", "anchors": ["oct/src/slot/mod.rs: read"]}
{"id": "C47", "title": "Slot::new has room for every value", "statement": "A Slot made by Slot::new for a SizedEncode type accepts every valid value of the type without panicking.", "quantifier": "every SizedEncode type and value", "why_tests_cant": "max over all values", "anchors": ["oct/src/slot/mod.rs: new, write", "oct/src/encode/sized_encode/mod.rs"]}
{"id": "C48", "title": "Slot raw-byte access is exact", "statement": "copy_from_slice panics exactly when the data is longer than the capacity and otherwise makes as_slice equal to the data, keeping the rest of the buffer; set_len panics exactly beyond capacity and otherwise only moves the mark; bytes put with copy_from_slice decode as they would from an Input.", "quantifier": "every slot and data", "why_tests_cant": "all sizes", "anchors": ["oct/src/slot/mod.rs: copy_from_slice, set_len, as_slice, as_mut_slice"]}
{"id": "C49", "title": "SizedSlice construction accepts exactly what fits", "statement": "SizedSlice::new / try_from a slice succeeds exactly when it has at most N items, keeping all of them in order, and otherwise reports the capacity and the length.", "quantifier": "every N, every slice", "why_tests_cant": "all sizes", "anchors": ["oct/src/sized_slice/mod.rs: new", "oct/src/sized_slice/conv.rs: TryFrom", "oct/src/error/length_error.rs"]}
{"id": "C50", "title": "Collecting into a SizedSlice keeps the first N items", "statement": "FromIterator yields the first min(N, length) items of the iterator in order, for any iterator including infinite ones, and takes no more than N.", "quantifier": "every N, every item sequence", "why_tests_cant": "all sequences", "anchors": ["oct/src/sized_slice/iter.rs: FromIterator"]}
{"id": "C51", "title": "SizedSlice conversions keep the items", "statement": "clone, into_vec, into_boxed_slice, each_ref, into_iter, as_slice and indexing all present the same items in the same order; only initialised items are ever presented.", "quantifier": "every reachable SizedSlice", "why_tests_cant": "all states", "anchors": ["oct/src/sized_slice/mod.rs", "oct/src/sized_slice/conv.rs", "oct/src/sized_slice/iter.rs"]}
{"id": "C52", "title": "SizedSlices compare and hash like their contents", "statement": "Equality, ordering and hash of SizedSlices depend only on their items, not on capacity or leftover memory: equality holds iff items are equal, ordering is lexicographic and total, and equal ones feed the hasher identically, for any two capacities.", "quantifier": "all pairs of slices and capacities", "why_tests_cant": "pairs", "anchors": ["oct/src/sized_slice/cmp.rs", "oct/src/sized_slice/mod.rs: Hash"]}
{"id": "C53", "title": "A SizedSlice hashes like the slice it borrows as", "statement": "Because SizedSlice<T, N> implements Borrow<[T]>, it feeds a hasher exactly as the borrowed slice does.", "quantifier": "all slices and hashers", "why_tests_cant": "all hashers", "anchors": ["oct/src/sized_slice/mod.rs: Hash", "oct/src/sized_slice/conv.rs: Borrow"]}
{"id": "C54", "title": "Safe SizedSlice operations stay within the buffer", "statement": "No safe SizedSlice operation writes outside its N-item buffer or reads an uninitialised item.", "quantifier": "every history of safe operations", "why_tests_cant": "undefined behaviour is invisible to tests", "anchors": ["oct/src/sized_slice/mod.rs: copy_from_slice", "oct/src/sized_slice/conv.rs"]}
{"id": "C55", "title": "Each item put in a SizedSlice is dropped exactly once", "statement": "Over the life of a SizedSlice and what it is converted to, each owned item is dropped exactly once, and never used afterwards.", "quantifier": "every history", "why_tests_cant": "histories", "anchors": ["oct/src/sized_slice/mod.rs", "oct/src/sized_slice/conv.rs: From<[T; N]>", "oct/src/sized_iter/mod.rs"]}
{"id": "C56", "title": "A SizedSlice decodes shorter and differently-sized encodings", "statement": "Decoding a SizedSlice<T, N> from the encoding of any sequence of at most N items (in particular of a SizedSlice with another capacity) yields those items; longer ones are refused with BadLength carrying N and the length.", "quantifier": "every N, M, item type and sequence", "why_tests_cant": "all lengths", "anchors": ["oct/src/sized_slice/code.rs", "oct/src/error/length_error.rs"]}
{"id": "C57", "title": "SizedIter is a double-ended queue of the remaining items", "statement": "Through any interleaving of next and next_back, SizedIter yields each item exactly once, in order from either end, then None forever; as_slice is what remains.", "quantifier": "every interleaving of calls", "why_tests_cant": "all schedules of calls", "anchors": ["oct/src/sized_iter/mod.rs: next, next_back, as_slice"]}
{"id": "C58", "title": "SizedIter::nth and size_hint agree with next", "statement": "nth(n) behaves as n+1 calls of next, returning the last result, and size_hint/len is exactly the number of remaining items.", "quantifier": "every state and n", "why_tests_cant": "all states", "anchors": ["oct/src/sized_iter/mod.rs: nth, size_hint"]}
{"id": "C59", "title": "Cloning a SizedIter copies what remains", "statement": "A clone yields the same remaining items and is independent from the original.", "quantifier": "every state", "why_tests_cant": "all states", "anchors": ["oct/src/sized_iter/mod.rs: Clone"]}
{"id": "C60", "title": "A SizedStr always holds UTF-8 within its capacity", "statement": "Through any sequence of safe operations a SizedStr<N> holds at most N bytes that are well-formed UTF-8.", "quantifier": "every history of safe operations", "why_tests_cant": "histories", "anchors": ["oct/src/sized_str/mod.rs", "oct/src/sized_str/conv.rs", "oct/src/sized_str/code.rs"]}
{"id": "C61", "title": "SizedStr construction accepts exactly what fits and is UTF-8", "statement": "new/try_from/parse succeed iff the text has at most N bytes; from_utf8 succeeds iff the bytes are at most N and well-formed, reporting SmallBuffer first and BadUtf8 with the index of the first defect otherwise; the contents are the given ones.", "quantifier": "every N and byte string", "why_tests_cant": "all byte strings", "anchors": ["oct/src/sized_str/mod.rs: new", "oct/src/sized_str/conv.rs: from_utf8, TryFrom, FromStr"]}
{"id": "C62", "title": "Collecting chars into a SizedStr keeps the longest fitting prefix", "statement": "FromIterator<char> keeps the chars up to the first one that does not fit any more, never splitting a char.", "quantifier": "every N and char sequence", "why_tests_cant": "all sequences", "anchors": ["oct/src/sized_str/mod.rs: FromIterator"]}
{"id": "C63", "title": "SizedStr encodes like str and decodes across capacities", "statement": "SizedStr<N> encodes as the str it holds; decoding SizedStr<N> from the encoding of any str of at most N bytes gives it back, and a longer one is refused with BadLength carrying N and its length.", "quantifier": "every N, M and string", "why_tests_cant": "all strings", "anchors": ["oct/src/sized_str/code.rs"]}
{"id": "C64", "title": "SizedStr raw parts and String conversion are as documented", "statement": "into_raw_parts returns a fully initialised buffer and len; into_string returns a String of the same text with capacity N.", "quantifier": "every reachable SizedStr", "why_tests_cant": "uninitialised memory is invisible to tests", "anchors": ["oct/src/sized_str/conv.rs: into_raw_parts, into_string"]}
{"id": "C65", "title": "Derive accepts every field type it documents", "statement": "A struct or enum whose fields all implement Encode (Decode) can derive Encode (Decode): the field's error converts into the generic error.", "quantifier": "every field type", "why_tests_cant": "all nested types", "anchors": ["oct/src/error/generic_encode_error.rs", "oct/src/error/generic_decode_error.rs", "oct-macros/src/impl_derive_macro.rs"]}
{"id": "C66", "title": "Encoding shared state under concurrent updates yields values that were held", "statement": "While other threads store to atomics, and change the contents of Mutexes and RwLocks, encoding a value that contains them behaves, under any schedule, as encoding a value in which each atomic is one of the values it held during the call and each lock's contents are contents it held during the call: never a mixture of two values of one atomic. If the call succeeds the bytes are the wire encoding of that value.", "quantifier": "every type, value and schedule of concurrent stores", "why_tests_cant": "all interleavings", "anchors": ["oct/src/encode/encode/mod.rs: impl_atomic", "oct/src/encode/encode/mod.rs: Encode for Mutex, RwLock"]}
{"id": "C67", "title": "Converting an error into Infallible never panics", "statement": "The conversions of error types into Infallible, which are unreachable code, are never reached: a type whose encode (decode) error converts into Infallible never returns an error from encode (decode).", "quantifier": "all types whose error type converts into Infallible, all values, all outputs and inputs", "why_tests_cant": "ranges over every nesting of types and every byte string; the conversion compiles whether or not an error value can reach it", "anchors": ["oct/src/error/item_decode_error.rs:61", "oct/src/error/enum_decode_error.rs:85", "oct/src/error/collection_encode_error.rs", "oct/src/error/enum_encode_error.rs"]}
{"id": "C68", "title": "Every error is a value of the declared error type", "statement": "An error that encode or decode returns is one that the associated error type of the implementation admits; types whose error is Infallible never return one.", "quantifier": "all types, values, outputs and inputs", "why_tests_cant": "ranges over every nesting of types, values and byte strings", "anchors": ["oct/src/encode/encode/mod.rs", "oct/src/decode/decode/mod.rs", "oct/src/error/mod.rs"]}
{"id": "C69", "title": "The set of accepted byte strings is exactly the specified one", "statement": "Decoding a type succeeds with a value and consumes given bytes exactly when those bytes are an accepted representation of that value under the documented format, with the leniencies of C19, C20 and C23 and no others.", "quantifier": "all types however nested, all byte strings, all positions in an input", "why_tests_cant": "ranges over all byte strings for all types; acceptance sets cannot be enumerated", "anchors": ["oct/src/decode/decode/mod.rs", "oct/src/sized_slice/code.rs", "oct/src/sized_str/code.rs", "oct-macros/src/impls/decode_enum.rs"]}
{"id": "C70", "title": "Slot indexing and comparison are exact", "statement": "Reading slot[i] returns byte i of the marked bytes and panics exactly when i >= len; writing slot[i] changes that byte only and panics exactly when i >= capacity; a Slot equals a byte slice exactly when its marked bytes are that slice.", "quantifier": "every slot, index and byte slice", "why_tests_cant": "all slots, indices and contents", "anchors": ["oct/src/slot/mod.rs: Index, IndexMut, PartialEq"]}
{"id": "C71", "title": "SizedStrs compare and hash like the text they borrow as", "statement": "Two SizedStrs of any capacities, or a SizedStr and a str, are equal exactly when their texts are; they are ordered as their texts, octet by octet; and a SizedStr feeds a hasher exactly as the str it borrows as.", "quantifier": "every pair of texts, capacities and histories", "why_tests_cant": "pairs of all texts and leftovers of all histories", "anchors": ["oct/src/sized_str/cmp.rs", "oct/src/sized_str/mod.rs: Hash", "oct/src/sized_str/conv.rs: Borrow"]}
{"id": "C72", "title": "Debug and release builds behave alike", "statement": "A program that encodes values, writes to slots or iterates over the items of a SizedSlice gets the same bytes, results and states whether it was built with overflow checks or without.", "quantifier": "every type, value, output state, history of slot calls and sequence of iterator calls", "why_tests_cant": "ranges over all values and call sequences, and over two builds of the program", "anchors": ["oct/src/encode/encode/mod.rs: SystemTime", "oct/src/slot/mod.rs", "oct/src/sized_iter/mod.rs: nth"]}
{"id": "C73", "title": "Whatever was decoded can be encoded again", "statement": "If decoding succeeds with a value then encoding that value succeeds, and decoding that encoding gives an equal value.", "quantifier": "every type, every input from which decoding succeeds", "why_tests_cant": "ranges over all byte strings that decode, most of which no encoder produced", "anchors": ["oct/src/encode/encode/mod.rs", "oct/src/decode/decode/mod.rs", "oct/src/sized_slice/code.rs"]}
{"id": "C74", "title": "Encodings are portable between machines of different pointer width", "statement": "Whatever one machine encodes successfully is a valid value on every machine with pointers of at least 16 bits, and whatever decodes is a valid value on every such machine; a value that survives encoding and decoding (C13) is the same when encoded on one machine and decoded on another.", "quantifier": "every pair of pointer widths from 16 bits, every type, value and input", "why_tests_cant": "tests run on one machine; the claim is about pairs of machines and all values", "anchors": ["oct/src/encode/encode/mod.rs: usize, isize", "oct/src/decode/decode/mod.rs: usize, isize"]}
{"id": "C75", "title": "Decoding builds no more items than it reads octets", "statement": "The number of items in all collections of a decoded value, texts included, is at most the number of octets that decoding it consumed.", "quantifier": "every type, every input from which decoding succeeds", "why_tests_cant": "an adversary chooses the input; ranges over all inputs and nestings", "anchors": ["oct/src/decode/decode/mod.rs: Vec, LinkedList, HashMap, HashSet, String, CString"]}
{"id": "C76", "title": "Decoding releases what it does not return", "statement": "Every value with heap memory that decoding completes ends up in exactly one place: in the returned value, or its destructor ran; nothing is leaked when decoding fails or panics half way.", "quantifier": "every type, every input, every point at which decoding may fail", "why_tests_cant": "ranges over all failure points in all nestings of types; leaks have no visible result", "anchors": ["oct/src/decode/decode/mod.rs", "oct/src/sized_slice/code.rs: decode", "oct-macros/src/impls/decode_struct.rs", "oct-macros/src/impls/decode_enum.rs"]}
{"id": "C77", "title": "Decoding reserves memory in proportion to its input", "statement": "The room that decoding reserves for items is in proportion to the length of the input, whatever lengths the input declares.", "quantifier": "every type and every input, whether decoding succeeds or not", "why_tests_cant": "an adversary chooses the input; a bound needs all inputs", "anchors": ["oct/src/decode/decode/mod.rs: Vec, HashMap, HashSet"]}
{"id": "C78", "title": "MAX_ENCODED_SIZE is no larger than needed", "statement": "For every type with a largest encoding, some valid value has an encoding of exactly MAX_ENCODED_SIZE octets, so a buffer of that size is never larger than necessary.", "quantifier": "every type that implements SizedEncode, any nesting", "why_tests_cant": "ranges over all types, including derived ones", "anchors": ["oct/src/encode/sized_encode/mod.rs: SizedEncode", "oct-macros/src/impls/sized_encode_struct.rs", "oct-macros/src/impls/sized_encode_enum.rs"]}
{"id": "C79", "title": "Types without optional parts have encodings of one size", "statement": "If no part of a type is optional or of varying length (and the variants of its enumerations are of equal size), then every encoding of it takes exactly MAX_ENCODED_SIZE octets, decoding consumes exactly as many, and item k of an array or vector of it stands at k times that size.", "quantifier": "every such type, every value, every input, every index", "why_tests_cant": "ranges over all types, values and inputs", "anchors": ["oct/src/encode/sized_encode/mod.rs: SizedEncode", "oct/src/encode/encode/mod.rs", "oct/src/decode/decode/mod.rs"]}
{"id": "C80", "title": "Variants can be added to an enumeration", "statement": "If variants are added behind the existing ones of an enumeration, anywhere inside a type, then encodings made before are decoded to the same values, existing values are encoded as before, and a program without the new variants refuses them and reports their discriminant.", "quantifier": "every type, every such change of it, every input, every value", "why_tests_cant": "ranges over pairs of type definitions, contexts and inputs", "anchors": ["oct-macros/src/impls/encode_enum.rs", "oct-macros/src/impls/decode_enum.rs", "oct-macros/src/discriminants/mod.rs"]}
{"id": "C81", "title": "Equal values are encoded alike", "statement": "Two values that are equal in the sense of `==` have the same encoding, or fail to encode in the same way.", "quantifier": "every type with `==`, every pair of equal values, every output", "why_tests_cant": "ranges over all pairs of values of all types", "anchors": ["oct/src/encode/encode/mod.rs"]}
{"id": "C82", "title": "Derived enums use the compiler's discriminants and representation", "statement": "When Encode or Decode can be derived for an enumeration, the generated code uses for each variant the discriminant that the compiler assigns to it, in the integer type that the compiler represents it with.", "quantifier": "every list of attributes and every list of variants, with any mixture of explicit and implicit discriminants", "why_tests_cant": "unbounded lists of variants and attributes", "anchors": ["oct-macros/src/discriminants/mod.rs", "oct-macros/src/repr/mod.rs", "oct-macros/src/impl_derive_macro.rs"]}
{"id": "C83", "title": "Every enumeration can derive", "statement": "Encode, Decode and SizedEncode can be derived for every enumeration that the compiler accepts, whatever its discriminants and representation.", "quantifier": "every list of attributes and variants that the compiler accepts", "why_tests_cant": "unbounded lists of variants, any constant expressions", "anchors": ["oct-macros/src/discriminants/mod.rs", "oct-macros/src/repr/mod.rs"]}
{"id": "C84", "title": "Generic definitions can derive", "statement": "For every generic definition the derived implementation is one for the type itself, with its parameters, their bounds and its `where` clause, in their order, and its header compiles.", "quantifier": "every list of lifetime, type and constant parameters, with bounds and defaults", "why_tests_cant": "unbounded lists of parameters", "anchors": ["oct-macros/src/impl_derive_macro.rs", "oct-macros/src/generic_name/mod.rs"]}
{"id": "C85", "title": "Every failure is an error", "statement": "The error that an encode or decode call returns implements `Error` and `Display`, for every supported type, so that it can be boxed, printed and chained with `?`.", "quantifier": "every type (any nesting), value, output and input", "why_tests_cant": "unbounded nesting of types, every failing value", "anchors": ["oct/src/error", "oct/src/encode/encode/mod.rs", "oct/src/decode/decode/mod.rs"]}
{"id": "C86", "title": "Errors lead to their cause", "statement": "Following `source` from the error of a failed encode ends at the size value that is out of range or the cell that is mutably borrowed; from that of a failed decode, at the code point, zero, CString octet, UTF-8 octet, length over capacity or discriminant that was not acceptable. Converting to the generic error keeps that cause.", "quantifier": "every type, failing value and failing input; every chain of errors", "why_tests_cant": "unbounded chains of errors", "anchors": ["oct/src/error", "oct/src/error/generic_encode_error.rs", "oct/src/error/generic_decode_error.rs"]}
{"id": "C87", "title": "Messages are faithful", "statement": "The message of an error ends with that of its source, and two failures of encoding (decoding) the same type with the same message are the same error. The same holds for string errors and stream errors.", "quantifier": "every type, pair of failing values or inputs, numbers of any size", "why_tests_cant": "all pairs of errors, unbounded indices and nesting", "anchors": ["oct/src/error"]}
{"id": "C88", "title": "Exactly the failing values fail", "statement": "Encoding a value fails exactly if it has a component that cannot be encoded; the error names the first such component in the order of the format, with the index in each collection on the way, and exactly the octets of what precedes it have been written. This is so whenever the output has room for those octets.", "quantifier": "every type, valid value and output", "why_tests_cant": "unbounded nesting and length, every position of the offending component", "anchors": ["oct/src/encode/encode/mod.rs", "oct/src/error"]}
{"id": "C89", "title": "Exactly the malformed inputs are refused", "statement": "Decoding returns an error exactly if the input begins with octets that the format refuses; the error names the first component at fault with its index and the input has been read up to the end of that component. Decoding panics exactly if the input begins neither with an encoding nor with a refused one.", "quantifier": "every type and input", "why_tests_cant": "every input, unbounded nesting and length", "anchors": ["oct/src/decode/decode/mod.rs", "oct/src/error"]}
{"id": "C90", "title": "The generated code is the model's", "statement": "Whenever the code that #[derive(Encode)], #[derive(Decode)] or #[derive(SizedEncode)] generates for a definition compiles, it behaves on every value, output and input as the format of the derived type demands: fields in the order of declaration, the discriminant first, each error converted as documented, the size the sum of the fields or the maximum over the variants. The names of fields and variants, and the constants in scope, make no difference to this. The macro generates code for exactly the definitions that it accepts.", "quantifier": "every definition with distinct names, every list of constants in scope, every value, output and input", "why_tests_cant": "definitions are unbounded in fields, variants and names; a clash of names shows only in the definition that has it", "anchors": ["oct-macros/src/impls/encode_struct.rs", "oct-macros/src/impls/encode_enum.rs", "oct-macros/src/impls/decode_struct.rs", "oct-macros/src/impls/decode_enum.rs", "oct-macros/src/impls/sized_encode_struct.rs", "oct-macros/src/impls/sized_encode_enum.rs"]}
{"id": "C91", "title": "Names are free", "statement": "A type can derive Encode, Decode and SizedEncode whatever its variants, fields and constant parameters are called and whatever constants are in scope.", "quantifier": "every definition with distinct names and every list of constants in scope", "why_tests_cant": "names are arbitrary", "anchors": ["oct-macros/src/impls/encode_struct.rs", "oct-macros/src/impls/encode_enum.rs", "oct-macros/src/impls/decode_struct.rs", "oct-macros/src/impls/decode_enum.rs", "oct-macros/src/impls/sized_encode_enum.rs"]}
{"id": "C92", "title": "Depth of a recursive type makes no difference", "statement": "For types that mention themselves or one another, a value keeps its validity and its encoding, and an input keeps its decoding, however many levels of the definition are unfolded, once there are enough for the value or input.", "quantifier": "every family of (mutually) recursive definitions, every value, output and input, every depth", "why_tests_cant": "definitions, depths and inputs are unbounded", "anchors": ["oct-macros/src/impls/encode_enum.rs", "oct-macros/src/impls/decode_enum.rs", "oct-macros/src/impls/encode_struct.rs", "oct-macros/src/impls/decode_struct.rs"]}
{"id": "C93", "title": "Recursive values round-trip", "statement": "A value of a recursive type of any depth decodes from its encoding to an equal value, and no encoding of such a value is the beginning of that of a different one, even if they differ in depth.", "quantifier": "every family of recursive definitions, every value of every depth", "why_tests_cant": "values of unbounded depth", "anchors": ["oct-macros/src/impls/encode_enum.rs", "oct-macros/src/impls/decode_enum.rs", "oct/src/encode/encode/mod.rs", "oct/src/decode/decode/mod.rs"]}
{"id": "C94", "title": "Decoding a recursive type comes to an end", "statement": "Decoding a value of a recursive type returns (or panics for want of input) on every input; it does not call itself for ever.", "quantifier": "every family of recursive definitions and every input", "why_tests_cant": "termination on all inputs for all definitions", "anchors": ["oct-macros/src/impls/decode_struct.rs", "oct-macros/src/impls/decode_enum.rs", "oct/src/decode/decode/mod.rs"]}
{"id": "C95", "title": "Nesting of calls is limited", "statement": "Decoding a recursive type nests its calls no deeper than a limit that does not depend on the input, so that hostile input cannot exhaust the stack.", "quantifier": "every family of recursive definitions and every input", "why_tests_cant": "the input that nests deepest is as long as one likes", "anchors": ["oct-macros/src/impls/decode_enum.rs", "oct/src/decode/decode/mod.rs"]}
{"id": "C96", "title": "len, is_empty and is_full tell the truth", "statement": "For a Slot, SizedSlice or SizedStr, len is the number of bytes, items or octets that it holds, capacity is what it was made with, is_empty is true exactly when it holds nothing, and is_full exactly when it holds as much as its capacity.", "quantifier": "every history of safe operations", "why_tests_cant": "every history", "anchors": ["oct/src/slot/mod.rs", "oct/src/sized_slice/mod.rs", "oct/src/sized_str/mod.rs"]}
{"id": "C97", "title": "Stores into a SizedSlice are exact", "statement": "Assigning to index k of a SizedSlice replaces item k and no other, and panics exactly when there is no item k; copy_from_slice makes the items those of the data; from an array the SizedSlice has its items, and by default none.", "quantifier": "every reachable SizedSlice, index, item and data", "why_tests_cant": "every history, length and index", "anchors": ["oct/src/sized_slice/mod.rs", "oct/src/sized_slice/conv.rs"]}
{"id": "C98", "title": "Parts of a SizedStr are text", "statement": "Indexing a SizedStr with a range of octets gives exactly that part of the text if both ends lie between characters, and panics otherwise; chars gives the characters of the text in order, and char_indices with each the number of octets before it.", "quantifier": "every reachable SizedStr and every range", "why_tests_cant": "every text and range", "anchors": ["oct/src/sized_str/mod.rs"]}
{"id": "C99", "title": "Containers of user types keep the users' promises", "statement": "If encoding the values of a user's type always gives the same octets, and decoding them gives the same value again in the sense its author means, then this holds of every type built from it by the library: options, results, tuples, arrays, vectors, lists, SizedSlice, Cow, cells, locks, ranges, bounds, and derived structs and enums; and the library adds nothing but lengths and tags.", "quantifier": "every implementation of Encode and Decode that a user may write, every nesting of types around it, every value", "why_tests_cant": "it ranges over code not yet written", "anchors": ["oct/src/encode/encode/mod.rs", "oct/src/decode/decode/mod.rs", "oct/src/sized_slice/code.rs", "oct-macros/src/impls"]}
{"id": "C100", "title": "Safe user code cannot break the streams or a Slot", "statement": "Around implementations that only write and read, encoding a container keeps the capacity, the earlier octets and those beyond the new position, and decoding keeps the input and moves only forward within it; and whatever safe code an implementation of Encode runs, even one that replaces the output it is given, a Slot never counts more octets than its capacity.", "quantifier": "every implementation in safe code, every type around it, every value, stream and Slot", "why_tests_cant": "it ranges over code not yet written, including hostile code", "anchors": ["oct/src/slot/mod.rs", "oct/src/encode/encode/mod.rs", "oct/src/decode/decode/mod.rs", "oct/src/encode/output/mod.rs"]}
{"id": "C101", "title": "MAX_ENCODED_SIZE of containers of user types is right", "statement": "If the MAX_ENCODED_SIZE that a user's type declares is never exceeded, then that which the library computes for a type built from it is never exceeded.", "quantifier": "every implementation and constant that a user may write, every nesting of types around it, every value and output", "why_tests_cant": "it ranges over code not yet written", "anchors": ["oct/src/encode/sized_encode/mod.rs", "oct/src/sized_slice/code.rs", "oct-macros/src/impls/sized_encode_struct.rs", "oct-macros/src/impls/sized_encode_enum.rs"]}
{"id": "C102", "title": "Exchanged messages are messages that were sent", "statement": "Two parties exchange values as the documentation shows: one writes a value to a Slot and sends the Slot as a datagram, the other receives into a Slot and reads it. If datagrams arrive unchanged, though they may be lost, repeated or reordered, then reading gives the value whose datagram arrived last, and that value was written by the sender; what the Slots held before makes no difference.", "quantifier": "every type and every sequence of writes, deliveries, repetitions, reorderings and losses", "why_tests_cant": "every history of two parties and a network", "anchors": ["oct/src/lib.rs", "oct/src/slot/mod.rs"]}
{"id": "C103", "title": "Types of the same form are interchangeable on the wire", "statement": "A program may change the types it exchanges, at any depth, as long as the form stays the same: fields may be regrouped into nested structs or tuples, named or flattened, arrays written out, empty parts added, values put in or taken out of boxes, counted references, cells, locks and Cow, a Vec turned into a LinkedList, a String into a Cow, a library enumeration (Bound, IpAddr, SocketAddr) into a derived one. Values of the same content are then encoded to the same octets with the same outcome, and the same octets are accepted, with the same content, or refused, at the same position.", "quantifier": "all pairs of types of the same form, all values, outputs and inputs", "why_tests_cant": "all pairs of types at any depth of nesting, and all inputs including malformed ones", "anchors": ["oct/src/encode/encode/mod.rs", "oct/src/decode/decode/mod.rs", "oct-macros/src/impls"]}
{"id": "C104", "title": "Which values come back from their own encodings", "statement": "Encoding a value and decoding the octets gives an equal value if and only if the value contains no HashMap and no HashSet, every SizedSlice in it is full (or its items take no octets), every SystemTime in it is at a whole second, and no RangeInclusive in it is exhausted. In particular no encoding of a HashMap or HashSet, not even of an empty one, is ever decoded to an equal one. Equality is meant in the widest sense: by `==` or identity, whatever the state of locks and cells.", "quantifier": "all types that implement Encode and Decode at any depth of nesting, all values that can be encoded", "why_tests_cant": "an exact boundary over all types and values; that a failure is certain, not only possible, cannot be sampled", "anchors": ["oct/src/encode/encode/mod.rs", "oct/src/decode/decode/mod.rs", "oct/src/sized_slice/code.rs"]}
{"id": "C105", "title": "Loops over a SizedIter see its items", "statement": "Every loop over a SizedIter by `for`, `fold`, `for_each`, `count`, `last` and the like ends and sees exactly the items that remain, in order; over `rev()` in reverse order; over `take(k)` the first k. Collected into a SizedSlice of capacity M, the first M of them are kept and the others stay in the iterator.", "quantifier": "all iterators reachable by any calls from any slice, all capacities", "why_tests_cant": "every history of the iterator, every length and capacity", "anchors": ["oct/src/sized_iter/mod.rs: next, next_back", "oct/src/sized_slice/iter.rs: from_iter, into_iter"]}
{"id": "C106", "title": "A SizedIter can be collected, skipped and stepped through", "statement": "`into_iter().collect()` into a Vec or a boxed slice gives the items of the slice; a loop over `skip(k)` sees all but the first k, whether by `for` or by `fold`; `step_by` sees every k-th; extending a Vec appends the items.", "quantifier": "all slices, all sizes of items, all k, with and without overflow checks", "why_tests_cant": "the outcome depends on the number of items, their size and the growth of the Vec; most lengths that a test would choose are undefined behaviour, which may seem to work", "anchors": ["oct/src/sized_iter/mod.rs: next, nth, size_hint", "oct/src/sized_slice/iter.rs: into_iter"]}
{"id": "C107", "title": "Containers survive panics of user code", "statement": "If the user's code panics inside of an operation of SizedSlice or SizedIter (in `clone`, in the `next` of an iterator that is collected, in `decode`, in a destructor), and the program catches the panic, then every variable holds what it held before, no item has been released twice or can be reached after its release, and the items made by the interrupted call are released.", "quantifier": "all programs over any number of containers, all implementations of the user's code, a panic at any of its calls", "why_tests_cant": "every point of interruption in every history; a second release shows as undefined behaviour, if at all", "anchors": ["oct/src/sized_slice/mod.rs: new, clone", "oct/src/sized_slice/iter.rs: from_iter", "oct/src/sized_slice/code.rs: decode", "oct/src/sized_iter/mod.rs: clone, nth"]}
{"id": "C108", "title": "Versions of a type can be mixed where the one knows the other", "statement": "A program whose definition of a type has more variants than another program's, lists them in another order, has a plain integer for a non-zero one or a longer SizedStr for a shorter one, anywhere inside of the type, reads all that the other program reads, as the same content, and stops at the same position. A program that only has the first fields of a structure reads those, from the beginning of the encoding. A value that both definitions can express is written alike by both. A variant whose number is not known is refused by that number.", "quantifier": "all pairs of types whose forms are in the relation, all inputs, all values, all outputs", "why_tests_cant": "a pair of versions has unboundedly many values, and the relation covers unboundedly many pairs of types", "anchors": ["oct-macros/src/impls/decode_enum.rs", "oct-macros/src/impls/encode_enum.rs", "oct/src/decode/decode/mod.rs", "oct/src/encode/encode/mod.rs", "oct/src/sized_str/code.rs"]}
{"id": "C109", "title": "The unsafe functions are sound within their documented contracts", "statement": "A program that calls the unsafe functions of SizedSlice, SizedStr and Slot (from_raw_parts, set_len, from_utf8_unchecked, set_len_unchecked, and writes through as_mut_ptr), each within its documented contract, in any order and mixed with safe calls, never runs into undefined behaviour or a debug assertion; every container shows contents that a safe program could have put there, and behaves as the one the safe program has. What into_raw_parts returns can be passed to from_raw_parts, which restores the container.", "quantifier": "all histories of safe and unsafe calls, all capacities, contents and lengths, with and without debug assertions", "why_tests_cant": "undefined behaviour need not show in a test, and every history counts", "anchors": ["oct/src/sized_slice/conv.rs: from_raw_parts, into_raw_parts, as_ptr, as_mut_ptr", "oct/src/sized_slice/mod.rs: set_len", "oct/src/sized_str/conv.rs: from_utf8_unchecked, from_raw_parts, into_raw_parts", "oct/src/slot/mod.rs: from_raw_parts, set_len_unchecked, as_mut_ptr"]}
{"id": "C110", "title": "An error message names the operation that failed", "statement": "The message of an error of an encode call, whatever the nesting, never speaks of decoding, and that of an error of a decode call never speaks of encoding.", "quantifier": "every type, value, output and input for which the call fails", "why_tests_cant": "messages are built from unboundedly nested errors with arbitrary numbers in them", "anchors": ["oct/src/error", "oct/src/encode/encode/mod.rs", "oct/src/decode/decode/mod.rs"]}
{"id": "C111", "title": "A container of supported types is supported", "statement": "Every generic container, collection, cell, range, tuple, map and result of types that implement Encode (Decode) implements it too.", "quantifier": "every container and all parameter types, at any nesting", "why_tests_cant": "infinitely many instantiations; a test only compiles those it names", "anchors": ["oct/src/encode/encode/mod.rs: impl_tuple", "oct/src/decode/decode/mod.rs: impl_tuple", "oct/src/encode/encode/mod.rs: Encode for HashMap", "oct/src/decode/decode/mod.rs: Decode for HashMap", "oct/src/encode/encode/mod.rs: Encode for Result"]}
{"id": "C112", "title": "A container prints as what it contains", "statement": "Formatting a SizedSlice or a Slot with Debug, or a SizedStr with Debug or Display, with any options in the format string, prints what formatting the slice or the str of its contents with these options prints. to_string and then parse gives an equal SizedStr. Two Slots print alike exactly when they hold the same octets.", "quantifier": "every container a safe program can make, all contents and capacities, all formatting options, every Debug of the items", "why_tests_cant": "unboundedly many contents, histories and combinations of options", "anchors": ["oct/src/sized_slice/mod.rs: impl Debug for SizedSlice", "oct/src/sized_str/mod.rs: impl Debug for SizedStr, impl Display for SizedStr", "oct/src/slot/mod.rs: impl Debug for Slot"]}
{"id": "C113", "title": "What is changed through a mutable view is what the shared view then shows", "statement": "Changing the items of a SizedSlice, the items left in a SizedIter, the text of a SizedStr or the octets of a Slot through as_mut_slice, as_mut_str, AsMut, BorrowMut, DerefMut, IndexMut, iter_mut or a reference from each_mut changes exactly what as_slice, AsRef, Borrow, Deref and Index show: afterwards these show the result of the change applied to what they showed before, and nothing else about the container is different.", "quantifier": "every container a safe program can make, of every capacity and item type, and every change that keeps the number of items", "why_tests_cant": "unboundedly many contents, histories and changes", "anchors": ["oct/src/sized_slice/conv.rs: as_mut_slice, AsMut, BorrowMut, DerefMut", "oct/src/sized_slice/mod.rs: each_mut", "oct/src/sized_iter/mod.rs: as_mut_slice", "oct/src/sized_str/conv.rs: as_mut_str", "oct/src/slot/mod.rs: as_slice, as_mut_slice, Index, IndexMut"]}
{"id": "C114", "title": "The text of the crate does what these properties say it does", "statement": "Reading the text of the crate as Rust: for every type and value, `encode` writes the octets of the format, fails and panics as the other properties say; for every type and every input, `decode` returns the value, error or panic that they say and stops where they say; and `MAX_ENCODED_SIZE` is the number they say. In particular what the text of `encode` writes the text of `decode` reads back.", "quantifier": "every type the crate supports, built to any depth, every value, every output and every input", "why_tests_cant": "unboundedly many types, values and inputs; tests compare the compiled program with expectations for single values and cannot compare two programs", "anchors": ["oct/src/encode/encode/mod.rs: every implementation", "oct/src/decode/decode/mod.rs: every implementation", "oct/src/encode/sized_encode/mod.rs: every implementation", "oct/src/sized_slice/code.rs", "oct/src/sized_str/code.rs"]}
{"id": "C115", "title": "The text of the error types does what these properties say it does", "statement": "Reading the text of the error types as Rust: every error prints the message, has the source and converts to `GenericEncodeError` or `GenericDecodeError` as the other properties say, and errors for which they say that there is no such conversion have none.", "quantifier": "every error that encoding or decoding any type returns, nested to any depth, every error of strings and streams", "why_tests_cant": "errors nest without bound, and each holds numbers of up to 128 bits", "anchors": ["oct/src/error: every implementation of Display, Error and From", "oct/src/primitive_discriminant/mod.rs: to_u128"]}
{"id": "C116", "title": "The headers of the implementations say which types can be encoded and decoded, and how errors convert", "statement": "Reading the headers of the implementations (parameters, bounds and `type Error`) as rustc does: which types implement Encode, Decode and SizedEncode, with which error types, which error types convert to which, and which implement Display and Error, is what the other properties say.", "quantifier": "every type the crate supports, built to any depth, and every error type that comes of it", "why_tests_cant": "types nest without bound, and whether a bound holds at one level depends on the error types of all levels below", "anchors": ["oct/src/encode/encode/mod.rs: impl headers", "oct/src/decode/decode/mod.rs: impl headers", "oct/src/encode/sized_encode/mod.rs: impl headers", "oct/src/error/*.rs: From, Display, Error", "oct/src/primitive_discriminant/mod.rs: PrimitiveDiscriminant"]}
{"id": "C117", "title": "Types with parts of limited size are of limited size", "statement": "A type that can be encoded and whose parts all implement SizedEncode implements SizedEncode itself, so that it fits into a Slot or an array of known length.", "quantifier": "every type that can be encoded, built to any depth", "why_tests_cant": "types nest without bound; whether a Result is SizedEncode depends on the error types of its parts, which depend on all that they contain", "anchors": ["oct/src/encode/sized_encode/mod.rs: SizedEncode", "oct/src/encode/encode/mod.rs: Encode for Result, PhantomPinned"]}
{"id": "C118", "title": "The text of the streams and containers does what these properties say it does", "statement": "Reading the text of Output, Input, Slot, SizedIter, SizedSlice and SizedStr as Rust, with memory in view: every function returns, panics or is undefined as the models say which the other properties are about, and leaves the fields, the cells of the buffer (initialised or not) and everything else in memory as they say. In particular no function reads outside of its buffer or an uninitialised cell where they say that it does not.", "quantifier": "every state of the object that its functions can reach, every argument, every content of the buffer and of the rest of the memory, with and without overflow checks, every item type (with whatever its `clone`, comparison and `hash` do), every user's iterator; for strings, every text, valid or not", "why_tests_cant": "unboundedly many states, lengths and contents; undefined behaviour does not show as a wrong result; tests compare the compiled program with expectations for single values and cannot compare two programs", "anchors": ["oct/src/encode/output/mod.rs", "oct/src/decode/input/mod.rs", "oct/src/slot/mod.rs", "oct/src/sized_iter/mod.rs", "oct/src/sized_slice/mod.rs", "oct/src/sized_slice/conv.rs", "oct/src/sized_slice/cmp.rs", "oct/src/sized_str/mod.rs", "oct/src/sized_str/conv.rs", "oct/src/sized_str/cmp.rs"]}
{"id": "C119", "title": "The text of the derive macros generates the code that these properties are about", "statement": "Reading the text of oct-macros as Rust and running it as the compiler does: for every definition, `derive(Encode)`, `derive(Decode)` and `derive(SizedEncode)` write exactly the implementation that the other properties are about, token by token (header, error type, attributes, patterns, calls in order, conversions of errors, constants), and panic for exactly the definitions that the other properties say are refused. What is written, if it compiles, encodes, decodes and measures as the format demands.", "quantifier": "every struct, enum and union, with any fields, variants, explicit discriminants, attributes, generic parameters and `where` clause", "why_tests_cant": "definitions are unbounded in fields, variants, names and discriminants; a test of a macro sees a handful of definitions", "anchors": ["oct-macros/src/lib.rs", "oct-macros/src/impl_derive_macro.rs", "oct-macros/src/repr/mod.rs", "oct-macros/src/discriminants/mod.rs", "oct-macros/src/generic_name/mod.rs", "oct-macros/src/impls: encode_struct, encode_enum, decode_struct, decode_enum, sized_encode_struct, sized_encode_enum"]}
{"id": "C120", "title": "Whether a type can fail is decided by its parts", "statement": "Encoding some value of a type returns an error if and only if the type has, in a part that a value can contain, a usize or isize, a slice, vector, linked list, string or C string, a sized slice or sized string whose capacity exceeds 65535, a RefCell, or a variant whose discriminant does not fit 16 bits. Decoding some input returns an error if and only if the type has, in a part that can be reached, a NonZero, a char, text, an IP or socket address of either version, a Bound, a sized slice with a capacity below 65535, or an enum that does not assign every discriminant that can be written. Every other type can be encoded and decoded without errors whatever the value, the octets and the position.", "quantifier": "every type, every value and output, every input", "why_tests_cant": "types nest without bound, and that no value or input of a type fails is a statement about all of them", "anchors": ["oct/src/encode/encode/mod.rs", "oct/src/decode/decode/mod.rs", "oct/src/sized_slice/mod.rs", "oct/src/sized_str/mod.rs", "oct-macros/src/impls/decode_enum.rs"]}
{"id": "C121", "title": "Containers may cross threads if their items may; streams, slots and errors always may", "statement": "A SizedSlice<T, N> and a SizedIter<T, N> can be sent to another thread, be shared between threads, be moved after being pinned and be carried across a caught panic exactly if T can. A SizedStr<N>, an Input and a Slot<T> always can, a Slot whatever T is; an Output can but for the caught panic, as it holds a mutable reference. The error of encoding or of decoding any supported type, however deeply nested, always can, and so can the errors of the methods of streams, slices and strings. An error type with parts of the user's own can exactly if the parts can.", "quantifier": "every item type and length, every assignment of the five auto traits to the parameters, every supported type that can be encoded or decoded", "why_tests_cant": "A test asserts `T: Send` for the few types it names. The claim is about every item type and about the error of every nesting of types, of which there are infinitely many, and also that the traits do not hold where they must not, which a test that compiles cannot show.", "anchors": ["oct/src/sized_slice/mod.rs: struct SizedSlice", "oct/src/sized_iter/mod.rs: struct SizedIter", "oct/src/sized_str/mod.rs: struct SizedStr", "oct/src/slot/mod.rs: struct Slot", "oct/src/decode/input/mod.rs: struct Input", "oct/src/encode/output/mod.rs: struct Output", "oct/src/error/: all types"]}
{"id": "C122", "title": "The text of the streams, the slot, the containers and the iterator keeps its promises over whole programs", "statement": "Running the source text of the functions themselves: an Output over any octets keeps, in order and without gaps, exactly the writes that fit into what is left, refuses the others with the capacity, position and length, and reports position, capacity, remaining room and contents accordingly; an Input hands out each octet once and in order, through read and read_into alike, and a read of too many octets hands out none and moves nothing; a Slot keeps its capacity and a length within it whatever is called on it, panicking calls included, and then takes a value exactly if its encoding fits, holds that encoding and reads it back; a SizedIter is a queue taken from both ends, and drops nothing on its own; a SizedSlice is a list of at most N items, whatever mixture of new, copy_from_slice, clone and assignments through an index it goes through, and the one undefined call is copy_from_slice with too much data.", "quantifier": "every initial buffer and its surroundings, every sequence of calls of any length with any arguments, failing and panicking calls included, and any other memory at each call", "why_tests_cant": "programs are arbitrarily long and the state carries over from call to call; each call may lie next to other data that must stay untouched", "anchors": ["oct/src/encode/output/mod.rs: Output", "oct/src/decode/input/mod.rs: Input", "oct/src/slot/mod.rs: Slot", "oct/src/sized_iter/mod.rs: SizedIter", "oct/src/sized_slice/mod.rs: IntoIterator for SizedSlice", "oct/src/sized_slice/mod.rs: SizedSlice::new, copy_from_slice, Clone, IndexMut, Default"]}
{"id": "C123", "title": "Every choice of features builds, on every target", "statement": "The crate calls itself compatible with no_std and lists alloc, std and proc-macro as features one may leave out (README.md:12, 292-298). So whichever of them are on, and whichever atomics the target has, every name that the build uses is one it has: imports, paths in items, and variants of enumerations. Turning a feature on only adds, and Slot is there exactly with alloc.", "quantifier": "every choice of the three features and of the widths of atomics the target has, every module, every import and every path in the source text", "why_tests_cant": "a test runs in one build; the choice of features and target is made before any test can run, and a build that fails has none", "anchors": ["oct/Cargo.toml: features", "oct/src/lib.rs: extern crate, use_mod", "oct/src/error/mod.rs", "oct/src/error/generic_decode_error.rs: GenericDecodeError", "oct/src/decode/decode/mod.rs: imports, impl_atomic", "oct/src/encode/encode/mod.rs: impl_atomic", "oct/src/encode/sized_encode/mod.rs: impl_atomic", "every #[cfg] of oct/src"]}
{"id": "C124", "title": "A function panics when, and only when, its documentation says that it does", "statement": "Output::write, Input::read and Input::read_into panic exactly when the bytes asked for cannot be written or read in full, as their section 'Panics' says. Slot::set_len panics exactly when the new length is greater than the capacity, and Slot::copy_from_slice exactly when the data are longer than the capacity. In every other case they return.", "quantifier": "every stream whose position lies within its buffer, wherever that buffer lies in memory; every slot; every length and every data slice", "why_tests_cant": "the condition is over all pairs of a buffer state and an amount; a test tries a few amounts, and a test written from the signature expects the error the documentation does not mention", "anchors": ["oct/src/encode/output/mod.rs: Output::write", "oct/src/decode/input/mod.rs: Input::read, Input::read_into", "oct/src/slot/mod.rs: Slot::set_len, Slot::copy_from_slice"]}
{"id": "C125", "title": "A lazy value is computed at most once, when an encoding first reaches it", "statement": "Encoding a value with LazyCell or LazyLock parts computes each of these at most once, whatever else is encoded or looked at before, meanwhile (by other threads) or after, and computes no cell that is not part of the value. The outcome is that of encoding the value with its lazy parts computed, whichever of them had been computed before. If a closure panics, so does the call, and what was written before is the beginning of what would have been written; later encodings of the same value write the same and panic too.", "quantifier": "every type and value with lazy parts, nested in any way and shared between any number of references; every closure outcome (a value or a panic); every set of cells computed before; every schedule of other threads that look at the cells", "why_tests_cant": "the number of calls and the outcome depend on who looks first; a test fixes one order and one set of computed cells, and LazyLock parts may be computed by another thread between any two writes", "anchors": ["oct/src/encode/encode/mod.rs: Encode for LazyCell, Encode for LazyLock"]}
{"id": "C126", "title": "Encoding leaves RefCells, Mutexes and RwLocks as it found them", "statement": "When a call that encodes a value ends, whether it returns or panics, each RefCell, Mutex and RwLock in the value is as it was before: the same contents and borrows, not locked by the call any more, and not poisoned if it was not. The call waits only for a lock that is part of the value and is held by someone else.", "quantifier": "every type and value with RefCells, Mutexes and RwLocks, nested and shared in any way; every state of borrows, locks and poison; every output, also one that is too small", "why_tests_cant": "guards have to be released on every way out of a call, of which there is one for each octet at which the output may end and each item that may fail, in every nesting", "anchors": ["oct/src/encode/encode/mod.rs: Encode for RefCell, Encode for Mutex, Encode for RwLock"]}
{"id": "C127", "title": "Threads that encode do not deadlock, and do not affect each other", "statement": "If any number of threads encode values at the same time, each to its own output, and the values share Mutexes, RwLocks and what these contain, then every call ends, and each ends as if it had been the only one; unless a Mutex contains itself.", "quantifier": "every number of threads; every type and value of each, with Mutexes and RwLocks nested and shared in any way but to contain themselves; every schedule; every output, also one that is too small", "why_tests_cant": "a deadlock needs a particular interleaving of two or more threads, each holding a lock that another one waits for; tests see few of the interleavings", "anchors": ["oct/src/encode/encode/mod.rs: Encode for Mutex, Encode for RwLock"]}
{"id": "C128", "title": "Encoding comes to an end, also for a value that contains itself", "statement": "Every call of `encode` comes to an end. A value can contain itself, as when a RefCell holds an Rc of the structure that it is in; encoding it must then fill the output and panic, not recurse without bound. (Violated: a `struct Map(RefCell<HashMap<(), Rc<Map>>>)` that was inserted into itself is encoded without end and without writing anything, as HashMap writes no length and the key has no octets; in practice the stack overflows. It holds if every cycle of the definitions writes an octet.)", "quantifier": "all definitions of structures and enumerations that mention themselves or one another, in which every cycle writes an octet; all values of them, with any contents of their RefCells, Mutexes and RwLocks, also cyclic ones; all outputs", "why_tests_cant": "A test encodes a few values; here the number of nested calls is bounded for every set of definitions and every graph of cells, by the room in the output.", "anchors": ["oct/src/encode/encode/mod.rs: impl Encode for RefCell, Mutex, RwLock, Option, Vec, HashMap", "oct-macros/src/impls/encode_struct.rs: encode_struct", "oct-macros/src/impls/encode_enum.rs: encode_enum"]}
{"id": "C129", "title": "A Cow can be decoded whenever the owned form of its type can", "statement": "If the owned form of a type can be decoded (String for str, CString for CStr, Vec<T> for [T], the type itself otherwise), so can a Cow of the type: the documentation of DecodeBorrowed gives this as its use. (Violated: `impl Decode for Cow<'_, B>` does not say `B: ?Sized`, so that Cow<str>, Cow<CStr> and Cow<[T]> do not implement Decode. It holds of Cows of types of known size.) References, Box, Rc, Arc, Cow, RefCell, Mutex and RwLock can be encoded also of types of unknown size.", "quantifier": "all types", "why_tests_cant": "A test names a few types, and a type that lacks an implementation cannot be named in a test that compiles; here the headers of all implementations are searched for every type.", "anchors": ["oct/src/decode/decode/mod.rs: impl Decode for Cow", "oct/src/decode/decode_borrowed/mod.rs: DecodeBorrowed", "oct/src/encode/encode/mod.rs: impl Encode for Box, Rc, Arc, Cow, RefCell, Mutex, RwLock, &T, &mut T"]}
