{
 "C01": "Any history of writes from any buffer.",
 "C02": "In every reachable state (position within capacity, by C01).",
 "C03": "Any history of read and read_into calls.",
 "C04": "Output against Output and against slices, after any two histories of writes.",
 "C05": "Integers, NonZero, atomics, floats by bit pattern, char.",
 "C06": "An equivalence with the independent relation Wire (Spec.v), for every type of the universe, including nested ones.",
 "C07": "For every outcome, including panics.",
 "C08": "For Ok and Err alike.",
 "C09": "Fixed encoding per value; panics exactly when it does not fit; the lowest SystemTime second is the exception in the English.",
 "C10": "Representable (Spec.v) is independent of the encoder.",
 "C11": "Encoding of arrays, slices, Vec, LinkedList, SizedSlice; decoding of arrays, Vec, LinkedList, HashSet, SizedSlice.",
 "C12": "Encoding and decoding, for all usize and isize values of 64 bits.",
 "C13": "Refuted in full: HashMap/HashSet write no length, SizedSlice decodes N items, exhausted RangeInclusive and sub-second times are lost. Proved for all other types and values, and the decoded value is given exactly. C104 shows that these are the only values; C13_exact says for which types every value that can be encoded comes back, and for every other type that some value does not. C13_writable: which types have a value that can be encoded.",
 "C14": "As C13. C104_chain: values one after another all come back, and the input is left where the output was, exactly if each survives by itself. C14_exact: for which sequences of types this holds of all values.",
 "C15": "For Ok and Err.",
 "C16": "For Ok and Err.",
 "C17": "Refuted for HashMap/HashSet (no length) and for values C13 loses. Proved for all types without HashMap/HashSet.",
 "C18": "Refuted for char (surrogates from DE00). Proved for all types without char; C18_exact: it fails exactly for the types of which a decodable value can have a char inside.",
 "C19": "Refuted: DE00..DFFF are accepted. Proved: exactly the scalar values and these.",
 "C20": "Refuted: any non-zero sign octet is accepted, and carried nanoseconds. Proved for types without bool, Option, Result, Duration, SizedSlice, HashMap, HashSet; C20_exact says for every type whether it holds (C20_exact without overflow checks, C20_exact_checked with).",
 "C21": "For all types with valid enums that have a decoder.",
 "C22": "For every outcome.",
 "C23": "bool, Option and Result, all 256 octets.",
 "C24": "All twelve NonZero types.",
 "C25": "The index is the length of the longest valid prefix.",
 "C26": "All byte strings.",
 "C27": "All octets, for the three types. Derived enums: C39.",
 "C28": "All second counts and nanosecond counts, carries included.",
 "C29": "Refuted: the code rounds towards the epoch. Proved: within one second, exact at whole seconds. C29_exact says which times come back as the nearest whole second.",
 "C30": "Refuted: the octets are written in reverse of the documented order. Proved: they come back. C30_exact: the documented order is met by exactly the palindromic addresses.",
 "C31": "Refuted: the encoder writes no length, the decoder reads one. Proved: decoding a length-prefixed list of entries, last wins.",
 "C32": "Any nesting of the wrappers.",
 "C33": "Refuted for SizedSlice and SizedStr of other lengths. Proved for the others, and for these when the length fits. C33_values says which values are decoded as the owned type, C33_exact which types decode all.",
 "C34": "Vec, LinkedList, String and CString; arrays.",
 "C35": "Refuted for SizedSlice (constant leaves out the length) and Result (constant uses memory sizes). Proved for all types without these, and for Result under the stated size condition. C35_exact covers every type: the constant is right exactly if the largest encoding, worked out in SpecPeak.v and proved to be that (C78_largest), is no larger.",
 "C36": "Refuted for SizedStr (reads a declared length beyond N), SizedSlice, and enums without variants. Proved for the others, and for successful decoding. C36_largest and C36_exact cover every type: what successful decoding takes at most, and hence when the constant bounds it.",
 "C37": "All structs; success and each failing field.",
 "C38": "All lists of variants with discriminants of u128.",
 "C39": "All enums with distinct discriminants that fit the representation.",
 "C40": "The constant, that it bounds the encodings if those of the fields do, and that it is attained if the fields attain theirs.",
 "C41": "Negative discriminants are the subject of C42.",
 "C42": "Refuted: `as u128` sign-extends negative numbers. Proved for the others; C42_exact: the non-negative ones and those of i128 are all.",
 "C65": "Refuted for RefCell and LinkedList (encoding), char and Result (decoding). Proved for all others.",
 "C67": "Proved for encoding; refuted for decoding (ItemDecodeError, EnumDecodeError).",
 "C68": "For every type that has an implementation, however nested, against the independent relations EOf and DOf (SpecDerive.v).",
 "C69": "An equivalence with the independent relation Accepts (SpecDecode.v).",
 "C43": "Histories of write, copy_from_slice, set_len and writing through as_mut_slice/IndexMut.",
 "C44": "The write clause in full. Reading back refuted for HashSet (and the other types of C13); proved with the exclusions of C13. C44_exact says for every type whether all values are read back.",
 "C45": "Refuted: the bytes written before the failure stay in the buffer. Proved: the length stays and the contents are as described. C45_exact: the contents stay exactly if the bytes written stood there already.",
 "C46": "Refuted: read passes the whole buffer. Proved when the marked bytes suffice. C46_exact: it holds for a decodable type only if the type takes no octets.",
 "C47": "Refuted for SizedSlice and Result, as in C35. Proved for the others after any history; the lowest SystemTime panics for the reason in C09. C47_exact says for every type whether a new Slot has room for all values.",
 "C48": "copy_from_slice and set_len in full; the decode clause is refuted when the data is too short (C46) and proved otherwise. C48_exact: the decode clause holds for a decodable type only if the type takes no octets.",
 "C70": "All slots, indices and slices.",
 "C49": "Including a clone that panics.",
 "C50": "Any iterator as a state machine, so infinite ones too; how far it is advanced is part of the statement.",
 "C51": "Any history of safe operations. into_vec and into_boxed_slice allocate zero bytes for an empty or zero-sized content, which is undefined behaviour: refuted there, proved elsewhere; C51_into_vec_exact: it is defined exactly elsewhere.",
 "C52": "Any two histories, capacities and item comparisons (PartialEq may be between two types).",
 "C53": "Refuted for every SizedSlice: the length prefix that [T] feeds first is missing. Partial: what it feeds is the rest.",
 "C54": "copy_from_slice is unguarded: refuted for every data longer than N. All other calls, in any history, are proved defined (into_vec: see C51). C54_exact: exactly for data longer than N.",
 "C55": "Refuted: SizedSlice and SizedIter have no Drop, From<[T; N]> drops the array it copied, nth duplicates. Proved: without nth none is dropped or given twice; exactly once through into_vec or iteration to the end. C55_exact and C55_array_exact say, for every life without nth, whether each item is dropped or given exactly once.",
 "C56": "Refuted: the decoder always reads N items. Proved for sequences followed by N - len more decodable items (none for full ones), and refusal of longer ones. C56_values: exactly the full sequences, or those of items without octets, decode; C56_exact: of which types all do.",
 "C57": "Any interleaving, from any reachable state.",
 "C58": "Refuted in seven ways. Proved for the value of nth on a fresh iterator within bounds, and for size_hint before the first next. C58_nth_exact: nth is right exactly if nothing is left and the index is not 0. C58_size_hint_exact: size_hint is right exactly if nothing was taken from the front.",
 "C59": "From any reachable state; the model's values share no memory, as the clone's buffer is its own array.",
 "C60": "Any history of safe operations, as_mut_str included.",
 "C61": "The index is characterised as that of the longest well-formed prefix.",
 "C62": "Any iterator of chars as a state machine, so infinite ones too.",
 "C63": "Also that nothing but such encodings is accepted.",
 "C64": "Refuted: Default and Clone leave octets uninitialised, the String has the capacity of its length, and an empty one is undefined. Proved otherwise; C64_string_exact: the conversion is defined for exactly the non-empty strings.",
 "C71": "Any two histories and capacities.",
 "C66": "Interleaving semantics: another thread may store any value to any cell between any two steps of the encoder. An atomic is read by one load; a lock's contents are what they were when the lock was taken. Executions in which the call does not return (a lock that is never released) are not considered. Nothing is claimed about the order in which stores to different atomics are seen.",
 "C72": "Refuted: encoding the lowest SystemTime second panics with checks and succeeds without. Proved for everything else, but for SizedIter::nth (see C58_nth_refuted: a panic with checks, undefined behaviour without). C72_value says for every value, and C72_exact for every type, whether encoding is the same in both.",
 "C73": "Refuted for SizedSlice, HashMap and HashSet. Proved: encoding succeeds for all types without char (surrogates, C18), and gives the value back with the exclusions of C13; C73_exact says for every type whether all valid decoded values come back (C73_exact without overflow checks, C73_exact_checked with).",
 "C74": "The model's decoder is the same on every machine; what differs is which usize and isize values exist. The third theorem assumes RoundTrips as C13 does, which is in the English.",
 "C75": "Refuted for collections of items that take no octets, such as Vec<()>. Proved for all other types. _exact: an item type is excluded if and only if an item can be decoded from no octets, and with every such type two octets build as many items as the length says.",
 "C76": "Refuted for Vec, arrays and SizedSlices whose items own memory: items before a failing one are leaked. Proved: each completed value is in exactly one place (result, dropped, leaked), and nothing is leaked for all other types. _leaks says what is leaked for items of any type; _certain: each excluded collection does leak on some input, if an item takes an octet and one that owns memory can be decoded.",
 "C77": "Refuted: two octets reserve 65535 items of any size before one is read. Proved: each reservation is for at most 65535 items and there are at most half as many as octets consumed. _certain: the same for every item type and every length.",
 "C78": "Refuted for Result (its constant uses memory sizes), for enums whose largest variant has no value and for SizedStr of more than 65535 octets. Proved for all types without these (Exact). C78_largest gives the size of the largest encoding of every type without hash collections, and C78_exact says when the constant is that.",
 "C79": "Proved for encoding and decoding, and for the place of array and vector items.",
 "C80": "Proved for any change of that kind anywhere inside a type: reading old data, writing as before (including failures), and old programs refusing new variants.",
 "C81": "Refuted for floats (0.0 == -0.0) and for HashMap and HashSet (order of iteration). Proved for all other types, for every outcome of the call.",
 "C82": "The front end of the macros is modelled in Macro.v: discriminant expressions, repr attributes, definitions. Constant expressions are reduced to literals, negation, parentheses, addition and named constants.",
 "C83": "Refuted: negative, byte and computed discriminants, and repr(C, u8) or repr(align(..)), make the macro panic. The partial theorem says exactly which definitions are refused.",
 "C84": "Refuted: the defaults of parameters are copied into the header of the implementation, where the compiler refuses them. The partial theorem is exact. Bounds that the fields need are left to the author of the type and are not modelled.",
 "C85": "Refuted for LinkedList, whose encode error holds a tuple (index, error), which is no Error and has no Display. The partial theorem covers every type that does not contain LinkedList; decoding is covered in full; C85_encode_exact: the error type is an Error if and only if there is no LinkedList anywhere in the type.",
 "C86": "Errors, `source` and `Display` are modelled in ErrorText.v. A cause is one of the leaves listed in SpecText.v, with the number that makes it a failure. An unassigned discriminant keeps its number in the generic error.",
 "C87": "Messages are modelled octet by octet, with Rust's decimal and hexadecimal formatting.",
 "C88": "`Fails` of SpecErrors.v is a relation over values and octets, independent of the encoder. For types with Encode (enc_ety).",
 "C89": "`Rejects` of SpecErrors.v is a relation over octets, independent of the decoder. For types with Decode (dec_ety) whose enumerations the compiler accepts (EnumsOk).",
 "C90": "The generated bodies are syntax (Codegen.v) with a meaning (RustSyntax.v: scopes, patterns, `?`, early return, match in order); running them is proved equal to `encode`, `decode` and `max_size` of the derived type.",
 "C91": "Partial: violated by a variant called `Error` (`Self::Error` is ambiguous, a lint that is an error by default) and by constants, or constant parameters, called like a variable of the generated code (`stream`, `value0`, ..). Proved to compile in every other case, as far as names go.",
 "C92": "Recursive definitions are a deep syntax (Recursive.v) unfolded to depth n; no recursion through Result, which a type with Decode cannot contain. C92_plain ties the language of recursive types to the plain one: a definition that mentions none is the struct or enum that it says.",
 "C93": "Partial as C13 and C17 are: hash collections, SizedSlice that is not full and lossy values are excluded. The refutation is a recursive type with a HashSet, at every depth. C93_survivors says which values come back, C93_exact which types keep all their values.",
 "C94": "Violated by `struct Loop(Box<Loop>)`, which compiles. Proved whenever each cycle of definitions reads an octet (`grounded`), with an explicit bound on the depth. C94_exact decides it: decoding returns on every input if and only if the relation `enters` of SpecGrounded.v (a definition is begun before an octet is read) is well-founded; C94_cycle: on a cycle no input returns.",
 "C95": "Violated by every list-like type: the input of n+1 octets needs n+1 nested calls. What holds is a bound in the octets of the input: octets * (rank + 1). C95_exact says for every type how deep the nesting can be: more than n calls if and only if n definitions can be begun one inside the other (relation `calls` of SpecNesting.v: mentioned, with everything before it decodable). C95_finite: with finitely many definitions there is a limit exactly if no cycle of `calls` is reached.",
 "C96": "Holds for all three containers.",
 "C97": "Copying more data than the capacity writes out of bounds instead (C54); everything else is exact. C97_exact: exactly for data that fits.",
 "C98": "str::get, Chars and CharIndices of core are transcribed; the text is that of C60.",
 "C99": "Partial as C13 is: a SizedSlice that is not full does not come back (refutation with a user's item type). HashMap and HashSet of user types are modelled with any behaviour of the user's Eq and Hash; like other maps they do not come back. C99_instances ties the model with user types to that of the other properties.",
 "C100": "User code is an arbitrary function on streams; for Slot, any sequence of writes and replacements of the output. The assertion in the private `set_len` is what makes it hold. C100_slot_swapped: exactly what a Slot holds and counts after code that exchanged the output.",
 "C101": "Violated for the reasons of C35: SizedSlice leaves out its length, Result counts memory.",
 "C102": "Violated by a sender that ignores the result of `write`, as the client in the documentation of the crate does: after a failed write the Slot sends the new octets with the old length (C45). Proved for senders that send only after a successful write, with the exclusions of C13. C102_exact says for which types of messages it holds; C102_careless when a sender may ignore the result of `write`.",
 "C103": "Proved. The form of a type (SpecForm.v) leaves out names, grouping and transparent containers; C103_alike lists the types that have one form, C103_alike_inside that parts can be exchanged, C103_content that equal contents are equal values. SizedSlice and SizedStr share the form of slices and text for writing only, and hash tables have a form of their own.",
 "C104": "Proved, both ways. It makes the exclusions of C13 exact: what is read for an equal value is never shorter than what was written for it, and a length that the encoder does not write, or items that it leaves out, make it longer. C104_widest says that the equality used is coarser than `==` and than identity.",
 "C105": "Proved for every reachable iterator, as an equivalence: the loop has this outcome and no other. What core does with the calls is transcribed in IterUse.v.",
 "C106": "Violated. size_hint subtracts the position from the number of items left, unchecked, and nth reads the wrong cell (C58); collect calls size_hint after next. C106_collect_partial is exact: a slice of one item, or of more than four (eight if of one octet, one if over 1024), is undefined behaviour to collect. C106_skip_partial: the first item comes twice. step_by never works. What is collected is never wrong (C106_collect_sound), and extending a Vec with enough capacity is right.",
 "C107": "Violated in two ways. nth calls the destructors of skipped items before it moves the position: if one panics, the items it had released are handed out again. And what an interrupted call had made is never released. C107_once_partial is the accounting of all items over all programs without nth, with a panic at any call; C107_kept_partial says which calls can lose items; C107_unchanged is about all calls.",
 "C108": "Containers whose items are read by rules of their own (HashMap, HashSet, SizedSlice) must be equal in both versions; C80 covers added variants inside of those.",
 "C109": "Holds except for SizedStr::from_utf8_unchecked, whose contract does not mention the capacity: a longer text is written beyond the buffer unless debug assertions are on (C109_str_refuted); the _partial theorems ask for texts that fit. For set_len and from_raw_parts the contract is read as: the cells before the length hold items. into_raw_parts of a SizedStr is for those whose buffer is initialised (C64).",
 "C110": "By induction on error values; characters outside the word separate its occurrences.",
 "C111": "Proved as an equivalence for every container with one parameter. False for tuples, maps and results: their bounds ask for one error type, so HashMap<String, u32> is neither Encode nor Decode and (u8, usize) is not Encode; the partial theorems give the exact condition. Bounds such as Copy for Cell and Eq + Hash for keys are outside the model.",
 "C112": "Holds for SizedSlice and SizedStr. Violated by Slot: `write!(f, \"{:?}\", …)` drops the options (C112_slot_refuted); C112_slot_partial is for plain `{:?}`, and C112_slot_text says what it prints in general. How core formats integers, slices and str is modelled in Format.v; `<str as Debug>` and the Debug of items are arbitrary functions.",
 "C113": "Violated by Slot: as_mut_slice, AsMut, BorrowMut, DerefMut and IndexMut reach the whole buffer, as_slice, AsRef, Borrow, Deref and Index only the octets marked as written. So slot[k] = b can succeed and slot[k] then panic, and slot.reverse() brings in octets that were never marked (C113_slot_refuted). C113_slot_exact: the two views are the same exactly when the slot is full. C113_slot_partial: what does hold. The other three containers satisfy it.",
 "C114": "The text of the implementations is held as syntax trees that tools/rust2v.py writes (SourceEncode.v, SourceDecode.v, SourceSizes.v, SourceSizedSlice.v, SourceSizedStr.v; `rust2v.py --check` compares them with /repo). SourceMeaning.v gives the trees a meaning; the theorems say that running them is [encode], [decode] and [max_size], so that every other theorem is about the text. Excluded by `of_rust`: tuples of no or more than twelve members and atomics of other types, which are not types of Rust programs that use the crate; by `sizes_fit`: constants of 2^64 or more. The bodies that the derives generate are not among the trees: they are the subject of C90.",
 "C115": "SourceErrors.v and SourceDiscriminant.v are written by tools/rust2v.py from oct/src/error and oct/src/primitive_discriminant. SourceText.v gives meaning to the trees, including format strings. SpecErrorSource.IsValue states which Rust value an error of the model is. Left out: errors of LinkedList, which hold a tuple and are neither Display nor Error; conversions to Infallible, of which there are no values.",
 "C116": "The headers are those that tools/rust2v.py writes to SourceEncode.v, SourceDecode.v, SourceSizes.v, SourceErrors.v and SourceDiscriminant.v; SourceHeaders.v searches them as rustc does (find the implementation, check its bounds, normalise its associated type). Traits of core that the model leaves aside (Copy, ToOwned, Borrow, Eq, Hash, BuildHasher, Default, Debug) are taken to be implemented. C116_asked lists all places where headers ask for them. Sized is left aside as well: see C129, by which Cow<str>, Cow<CStr> and Cow<[T]> are decodable here but not in Rust.",
 "C117": "Violated: `SizedEncode for Result` asks for the same error type of both parts where Encode asks for errors that convert, so that Result<S, u8> with S derived can be encoded but is not SizedEncode; PhantomPinned has no implementation at all. Proved: every type that is SizedEncode is Encode and has its constant, and an encodable type of parts with constants is SizedEncode exactly if it contains no Result with parts of different errors. C117_asked lists what else the headers ask of parameters.",
 "C118": "The functions are trees that tools/rust2v.py writes from /repo (SourceOutput.v, SourceInput.v, SourceSlot.v, SourceSizedIter.v, SourceSizedSlice.v, SourceSizedStr.v). SourceMemory.v runs them: structs and buffers are objects in memory, cells may be uninitialised, pointers carry the cells they may be used for, and undefined behaviour is an outcome. SpecMemory.v says how an object of a model lies in memory. One theorem per function; functions that only forward are in the theorem of what they forward to. A function that is const-evaluable or generic over views is run at the instance the crate uses. Every function of these files is in one of the theorems. Derived implementations (Clone and Default of SizedStr) have no text.",
 "C119": "The trees of SourceMacros.v are written by tools/rust2v.py from oct-macros/src, templates of `quote!` included; MacroRun.v runs them. C119_derive is token by token, for every definition; C119_encode, C119_decode and C119_size join it with C90, C119_panics with C82-C84. A type of the model has one spelling.",
 "C120": "[fallible] and [refusable] decide it from the type alone; both directions are proved. C67_infallible_decode_exact is the same for the types of C67.",
 "C121": "From the text of the type definitions. C121_containers and C121_parts are exact (both directions); C121_errors is for every supported type, by induction over the error type; Output is not UnwindSafe, which C121_streams states. Trusted: the rules of core for references, Box, MaybeUninit, PhantomData, and that Infallible and BorrowError have the traits.",
 "C122": "Each call runs the text of the function (Source*.v, generated from /repo) on the memory model of C118; between the calls everything else in memory may change. What `encode` and `decode` of the slot's type do is taken from the model (hypotheses encodes and decodes, met by the sample context), reading back has the exclusions of C13. The results are compared with small specifications: verdicts/kept, served, deque (SpecHistory.v, SpecContainers.v). Lengths below 2^64. For SizedSlice the specification is list_step/list_history (SpecHistorySized.v): plain lists with a capacity; `Clone` of the items is any total function, and where a list has no answer (too much data for copy_from_slice, C54) the theorem says that the text is undefined there.",
 "C123": "Violated: the names resolve exactly when both alloc and std are on (C123_exact), so the crate does not build with no_std, nor with one of the two alone. C123_faults lists each path that does not resolve and in which builds: SystemTimeDecodeError and CStringDecodeError imported without their conditions (decode/decode/mod.rs:26, generic_decode_error.rs:24), the variant NullString declared under std but used without it and imported under alloc (generic_decode_error.rs:34, 56, 85, 147), and std::sync::atomic in the implementations for atomics. SourceBuild.v is written by tools/cfg2v.py from the text. Only the resolution of names is modelled: not types, nor visibility beyond private imports; what stands under cfg(test) is left out.",
 "C124": "Violated: Output::write, Input::read and Input::read_into are documented to panic, but return an error in exactly those cases and never panic (C124_refuted; C124_write, C124_read and C124_read_into say for every stream what they do instead). Slot::set_len and Slot::copy_from_slice panic exactly when documented (C124_partial). The documented panic of Encode::encode is C09; panics of decoding, which no documentation mentions, are C21.",
 "C125": "Proved. Simplifications, stated in Lazy.v: a closure is what it returns, or a panic, and has no other effect; one that looks at its own cell (a panic or a deadlock in std) is not modelled. Memory ordering is not modelled: a LazyLock is computed under std's own lock, so looking at it is one step.",
 "C126": "Refuted: a Mutex gets poisoned if the output is too small for its contents, as the call then panics while it holds the lock. Proved: everything else is as before, and a Mutex gets poisoned only if the call panics and the Mutex is part of the value; C126_mutex_exact says exactly when, and C126_waits what a call can wait for. Other threads do nothing meanwhile (see C66 for those); a call made while the thread is unwinding is not modelled; with panic=abort nothing is left to be observed.",
 "C127": "Proved. Only the encoders act (C66 has other threads that store, without deadlock); std's RwLock may also make readers wait for a waiting writer, of which there is none here. C127_cyclic_case: with a Mutex that contains itself a single thread waits forever.",
 "C128": "Violated where a cycle writes nothing: C128_ends_refuted, a map inserted into itself, for which no depth of calls is enough. C128_ends_partial bounds the depth for definitions of which every cycle writes an octet. C128_model relates the encoders with calls to those of C126 and C93. Depth, not time, is what is bounded; at each depth a call does finitely much.",
 "C129": "Violated for str, CStr and slices: C129_cow_refuted, for each of them; C129_cow_partial proves it of all other types, C129_exact that a type is decodable exactly if its other bounds are met and it has no such Cow in it, C129_repair that `?Sized` is all that is missing, C129_encode and C129_encode_exact that the encoders have it wherever Rust can make use of it. Which parameters have `?Sized` is read from the source (SourceUnsized.v). The model's decoders cover Cows of str, CStr and slices all the same (dec_ety), so that other claims about Cows say more than today's Rust programs can use."
}