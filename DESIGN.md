# Formal model of oct (bzipper): design

The subject is the `oct` crate (0.14.5, formerly `bzipper`) and its derive macros `oct-macros`, read as text from
`/repo`. This file says what is modelled, how each property of `properties.jsonl` is proved, and what is trusted.

## 1. Shape of the model

Everything is Coq 8.16.1, standard library only, no axioms.

Model files (definitions only, each citing the lines of `/repo` it models):

| file | models |
|---|---|
| `Base.v` | outcomes (`Ok`/`Err`/`Panic`), octets, little-endian conversion |
| `Streams.v` | `Output` and `Input`: `oct/src/encode/output`, `oct/src/decode/input` |
| `Utf8.v` | `core::str::from_utf8` and `char::encode_utf8` (std behaviour, transcribed) |
| `Types.v` | universe `ty` of supported types, values `val`, validity `wt`, error values and their conversions (`oct/src/error`), `Discriminants` |
| `Traits.v` | which types implement `Encode` and `Decode`, with which error type |
| `Encode.v`, `Decode.v`, `Sized.v` | every `impl Encode`, `Decode`, `SizedEncode`, and the code the derive macros generate |
| `Slot.v` | `oct/src/slot` |
| `Mem.v`, `SizedSlice.v`, `SizedIter.v`, `SizedStr.v` | the containers, over cells that may be uninitialised |
| `Owned.v` | who drops the items of a container |
| `Shared.v` | encoding while other threads store to atomics and locks |
| `Heap.v` | decoding with the memory it makes, drops, leaks and reserves |
| `ErrorText.v` | `Display` and `Error::source` of every error: `oct/src/error` |
| `Format.v` | `Debug` and `Display` of the containers, with formatting options |
| `Raw.v` | the unsafe functions of the containers |
| `IterUse.v` | the standard library's adapters over `SizedIter` |
| `Unwind.v` | destructors and clones that panic |
| `Macro.v` | the front end of the derive macros: `oct-macros/src` |
| `Codegen.v` | the code that the derive macros generate, as syntax: `oct-macros/src/impls` |
| `RustSyntax.v` | the fragment of Rust in which that code is written, and its meaning |
| `Recursive.v` | types that mention themselves, unfolded to any depth |
| `User.v` | containers of types whose implementations the user writes |
| `Exchange.v` | the exchange of messages of the crate's documentation |

Specifications (`Spec*.v`, definitions only) hold the vocabulary of the theorem statements; none uses the encoders or decoders of the model
except through calls that the statements make themselves. Proofs are in `*Facts.v`, `*Proofs.v`, `*Refutations.v`, `RoundTrip.v`,
`DecodeLocal.v`, `EncodeCases.v`, `ValEq.v`, `DeriveMore.v` and `RecursiveLemmas.v`. The theorems are in `Properties*.v`, which hold nothing else: each closed by
one lemma, with `Print Assumptions`, and beside each group an `Example` that meets the hypotheses. `RepoTests.v` runs the repository's own unit tests
on the model. `Samples.v` holds the type and value of most examples.

The types form a *deep embedding*: one inductive `ty` with a constructor for each family of implementations, and one
inductive `val` of (untyped) values; `wt t v` says that `v` is a valid value of the Rust type `t`. `encode`, `decode` and
`max_size` are structural recursions over `ty`, one equation for each `impl`. A theorem over all `t` therefore covers every
nesting of the supported types, which is what generic Rust code means.

Streams keep the code's own representation (buffer and position). `encode` takes and returns an `Output`; `decode` takes
and returns an `Input`; a panic keeps the state in which it happened, since `catch_unwind` can observe it.
Uninitialised memory is `None` in a buffer of `option`; undefined behaviour is an explicit outcome `UB`, so that memory-safety
claims are statements about the model.

A property which the code violates gets a `_refuted` theorem (a witness) and a `_partial` theorem (the largest fragment found on
which it does hold); its manifest status is `partial`.

## 2. Plan per property

Streams (C01-C04): induction over lists of operations; failing operations are part of the history.

C05: byte i of the output equals `(z / 2^(8 i)) mod 256`; decoding inverts it, by induction on the width.

C06: an inductive relation `Wire t v bs` states the documented format independently of the model; proved equivalent to a
successful encode. C07-C10: every encoder is shown equal to replaying a list of chunks on the output (its *trace*); the
claims are lemmas about replaying. C11: from the trace of item lists. C12: direct.

C13-C14, C17: induction over `ty` from the same trace, for the types on which the code round-trips; refutations for
the others (HashMap, HashSet, SizedSlice that is not full, exhausted RangeInclusive, sub-second SystemTime).

C15, C16, C21, C22: each decoder is shown to be an interaction tree of reads (an inductive predicate closed under
bind); the claims are inductions on the tree.

C18-C20: induction over `ty`; refutations: `char` accepts U+DE00..U+DFFF; `bool` accepts any octet.

C23-C31: exact characterisation of one implementation each; refutations: octet order of addresses, nearest second,
HashMap/HashSet length.

C32-C34: equations between encoders (decoders), C33 by round trip. Refuted for SizedSlice and SizedStr.

C35, C36, C40, C47: induction over `ty` with `max_size`; `size_of` is an uninterpreted function because the
implementation for `Result` uses it. Refuted for `Result` and `SizedSlice`, for failing decodes and empty enums.

C37-C39, C41, C42, C65: model of the macro and of the error conversions.

C43-C48: Slot as a state machine. C49-C56: SizedSlice over a buffer of options, with explicit drops. C57-C59: SizedIter
refined to a list. C60-C64: SizedStr over the same buffer.

C66: encoder over a memory that other threads change between loads; the schedule is an arbitrary sequence of steps.

C67, C68: `EOf`/`DOf` say which values an error type has; every error returned is one of the declared type, by induction over `ty`.
Refuted for the conversion of an item error into `Infallible`.

C69: `Accepts t bs v` and `Rejects`, a specification of decoding written as relations over octets, proved equivalent to the decoder.

C70, C71: as C43-C48 and C60-C64.

C72: the encoder with and without overflow checks, by induction over `ty`; refuted for one `SystemTime` and for `SizedIter::nth`.

C73: a decoded value is valid and representable, so C10 applies; refuted for SizedSlice, HashMap and HashSet. C74: the model with 32-bit and 16-bit
pointers, related to the 64-bit one.

C75-C77: `count` of items built against octets read; the log of `Heap.v` conserves every owned value; reserved room against octets. Refuted for
items without octets, and for failing vectors and arrays (leaks); for the types left out, LeakProofs.v shows that the failure is certain, by induction
over the items before the failing one.

C78, C79: induction over `ty` with a type class of exact and uniform sizes. C35_exact, C36_exact, C47_exact, C78_exact: the largest encoding and the largest intake of a type are worked out as functions on `ty` (SpecPeak.v); that they are right is proved by induction over the wire relations (upper bound) and over `ty` (a value that attains it), in PeakProofs.v, IntakeProofs.v and RoomProofs.v.

C80: `Extends t t'` relates a type to one with variants appended; encoder and decoder agree on old values.

C81: `RustEq` is `==` of Rust; encoders agree on equal values; refuted for floats (0.0 and -0.0) and hash tables (iteration order).

C82-C84: `Macro.v` against the rules of the Rust reference (`SpecMacro.v`).

C85: which error types implement `Error`, by induction over `ty`; refuted for LinkedList. C86: the chain of sources by induction over the error, its last
link from C67/C68 and the exact errors. C87: formatting is injective, number by number; two errors of the same type have the same shape.

C88, C89: `Fails` and `Rejects` (`SpecErrors.v`), relations over values and octets, proved equivalent to failing calls by induction over `ty`;
C89's account of panics follows with C69.

C90, C91: the generated code as syntax, run by an interpreter with scopes and early returns; equal to the model's implementations by induction over
fields and variants. What constants in scope do is to stop it from compiling, by induction over the syntax. C91 is refuted for a variant `Error` and
for constants named like the code's variables.

C92-C95: definitions that mention one another, unfolded n levels deep with a type without values at the bottom. C92: an order on types (the same behaviour, except
where the bottom is reached) that every container preserves, by induction over the syntax. C93: from C13, C17 and C92. C94, C95: induction over the
octets left and the rank of a definition; refuted by `struct Loop(Box<Loop>)` and by a list type, whose nesting grows with the input.

C96-C98: from the shapes of C43, C49-C54 and C60. C98 by induction over the characters of a text; core's `str::get`, `Chars` and
`CharIndices` are transcribed in `SizedStr.v`.

C99-C101: `User.v` repeats the generic implementations with arbitrary functions for the types of users. Each claim is an induction over the type that
carries an assumption about these functions to the type built from them: a contract (C99), a preorder on streams (C100), a bound (C101). The theorems
`_instances` say that with standard types for those of users the functions are those of the other properties. C99 is refuted as C13, C101 as C35.

C102: `Exchange.v`, a transition system of two Slots and a set of datagrams; an invariant over all runs (every datagram is the encoding of a posted value
and fits; the receiver's buffer begins with the last one delivered), then C13. Refuted for a sender that ignores errors.

C103: `SpecForm.v` gives each type a form (a list of leaves, signs, repetitions, texts and choices) and each value a content. An interpreter of forms is shown
to agree with `encode` and with `decode` by induction over types, so types of one form agree with each other. `FormProofs.v`.

C104: `SpecSurvive.v` defines equality in the widest sense and the values that survive. One direction by the lengths of what is read and written, by induction on the
type, over permutations of the pieces of maps and sets; the other by building what is accepted, with padding where items take no octets (`SurviveProofs.v`).

C105, C106: `IterUse.v` transcribes what core and alloc do with an iterator (loops, `take`, `skip`, `step_by`, `collect`) as relations between a state and
an outcome, so that an equivalence says both that the loop ends and how. Induction over the items left; C106 is refuted, with exact conditions.

C107: `Unwind.v` repeats the loops that call the user's code, with a log of the items made, released and handed out, and scripts that say at which call the user's
code panics; a program is a list of calls over numbered variables. An invariant pairs each variable with what it holds (`UnwindProofs.v`). Refuted for `nth`.

### C108 — versions of a type

*Modelled*: nothing new; the relation `Understands` (SpecGrow.v) compares the forms of C103. *Proof*: by induction on forms, reading in the smaller form is followed by reading in the greater one step by step (`Follows`), and writing has the same effect (`Same`); the position only grows (`Onward`), which gives the claim about the first fields; enumerations by the assignment of numbers (`Assigned`).

### C109 — unsafe functions

*Modelled* (Raw.v): the raw-parts functions, `set_len`, `from_utf8_unchecked`, `set_len_unchecked`, reads and writes through the pointers, with debug assertions on or off. *Proof*: every history (`RawReachable`, `RawStr`, `RawSlot` in SpecRaw.v) keeps the shape of C49 and C60; and the behaviour of a container does not depend on the cells behind its items.

**C110** (Spec: `Mentions`, SpecAvail.v). The messages of ErrorText.v, for every error value that has one; by induction on the error, with a lemma that a character not in the word separates its occurrences.

**C111** (Spec: `Holder`, `OwningHolder`, `Converts`, SpecAvail.v). The associated error types of Traits.v. One-parameter containers: equivalence. Tuples, maps, results: violated; the exact condition and witnesses.

**C112** (Spec: `joined`, `Decimal`, SpecFormat.v). Formatting options as a record; core's formatting of slices, of u8 and of str with padding (Format.v). Decimal texts separated by ", " can be read back, by induction over the octets. Violated for Slot with options; witnesses.

### C113 — views

Model: `mem_edit` (Mem.v), `ss_edit`, `ss_store`, `it_edit`, `st_change`, `slot_edit`: a change given as a function on the items of the slice that the mutable view hands out. Proof (`ViewProofs.v`): by the shape invariants of the containers; an edit of a SizedSlice is also shown to be a sequence of stores, so that it leaves the container reachable; `IterReachable` has edits as steps of its own. For Slot: refuted, with the exact condition.

C18, C20, C73, exactly (`SpecReach.v`, `ReachProofs.v`, `PropertiesReach.v`): which kinds of types a decodable value can have inside, as a function on types. A flaw of a
part is a flaw of the whole (one induction over types for all three), given decodable values for the parts beside it; the other directions by induction on what is accepted.

**C13, C14, by type.** `SpecReach.v` also has the counterparts for encoding: `writable` (some valid value can be encoded, C13_writable) and `occurs kind t` (some value that can be encoded has a part of this kind). `C13_exact` and `C14_exact` (`WriteProofs.v`, `PropertiesWrite.v`): all values come back exactly if no `a_fleeting` type occurs. In one direction a value that is lost is built by induction on the type, in the other `Survives` follows for every value that can be encoded, and C104 does the rest.

**C44, C46, C48 (exact).** `C44_exact`: of the types that can be decoded, exactly those in which nothing of C13's exclusions can occur are read
back from a Slot. `C46_exact`, `C48_exact`: a read depends on octets past the mark for every decodable type that takes octets; proved by
writing one accepted input into the buffer and marking none of it.

**C20, C72, C73 (with overflow checks).** `C72_value`: among the values that a release build encodes, exactly those with a SystemTime at the
lowest second are not encoded by a debug build. `C72_exact`, `C20_exact_checked`, `C73_exact_checked` lift this to types: by `occurs a_time`
(some encodable value has a SystemTime inside) and `reaches a_time` (some input decodes to one).

### C114 — the text of the crate

Everything else is about `encode`, `decode` and `max_size`, which are written by hand after the Rust. C114 removes that step for the implementations in `encode/encode`, `decode/decode`, `encode/sized_encode`, `sized_slice/code.rs` and `sized_str/code.rs`:
* `tools/rust2v.py` parses the Rust files, expands the crate's own `macro_rules!`, and writes the trees as Rocq terms (`Source*.v`, one definition for each function and implementation, with file and line). It interprets nothing. `--check` compares the committed trees with the files in /repo.
* `SourceSyntax.v` is the syntax. `SourceMeaning.v` is an evaluator in continuation-passing style: environments, a small heap (streams, arrays that may be partly uninitialised, collections under construction), early return, `?`, loops, `match`, arithmetic with or without overflow checks, and the functions of `core`, `alloc` and `std` that the text calls. Whatever is not covered ends in `FStuck`, which is no result: a theorem that a call returns something excludes it. `SourceRun.v` selects the implementation for a type (`find_impl`: unification of the `impl` header with the type), passes the parameters, and lets implementations call one another to a depth `n`.
* Proof: for each implementation, symbolic evaluation with the calls it makes abstracted (`SourceDecodeProofs.v`, `SourceEncodeProofs.v`, `SourceSizeProofs.v`); loops by a lemma that turns `for_each` over a list into a fold with an invariant (`SourceDecodeLoops.v`, `SourceEncodeLoops.v`); then induction over the type (`SourceDecodeAll.v`, `SourceEncodeAll.v`) gives a depth that suffices for all values and inputs.
* Simplified: references are transparent; trait selection does not check bounds (which types implement the traits is a matter of `Traits.v`); a type that the compiler infers and the text does not write (`let len = Decode::decode(input)?`) is taken from a table, `holes` in `SourceRun.v`, that lists them for each implementation in the order of the calls; the associated `Error` types are not computed from the text.

### C115 — the text of the error types

What C114 is for encode and decode, C115 is for `oct/src/error`. The functions there change nothing, so `SourceText.v` is an evaluator of its own, with plain values: numbers, structs and variants by name, and the text that `write!` produced. It parses format strings (`{}`, `{e}`, `{value:#X}`, `{:04X}`) as `std::fmt` describes them. `SpecErrorSource.IsValue` says which Rust value an error of the model is: type, variant and fields, by name. The theorems say that messages, sources and conversions of such a value, by the text, are `display`, `source`, `into_generic_enc` and `into_generic_dec`. `C115_encode_errors` and `C115_decode_errors` say that the errors of encoding and decoding are such values. Trusted: `rust2v.py`, the evaluator, and `BorrowError` of core, whose text is not in /repo.



### C116 — headers; C117 — SizedEncode

`SourceHeaders.v` is rustc's search for implementations on the headers in the generated files: find the implementation that applies, check each bound, normalise its `type Error`. The search is recursive (`Result<T, E>` asks whether the error of E converts to that of T, which asks about the errors within), so it takes a depth, and the theorems say that there is a depth from which on the answer is that of Traits.v (`Decided`). Before C116, `enc_ety`, `dec_ety` and the conversions were transcribed by hand. `SizedTypes.sized` is the same for SizedEncode; C117 says what it amounts to.

### C118 — the text of the streams and containers

What C114 is for encode and decode, C118 is for the structs with unsafe code. `SourceMemory.v` is an evaluator with memory: objects (buffers with cells that may be uninitialised, structs, tuple structs, a user's iterator, a user's hasher), references and slices as places in it, raw pointers with the range they may be used for, and outcomes return, panic, undefined behaviour and `FLost` (the program left this account; no theorem has it as an outcome for a reachable state). Calls among functions of the crate are looked up in the trees by name and run from the text; functions of core and alloc (`copy_nonoverlapping`, `slice::from_raw_parts`, `get`, `assume_init_read`, `alloc`, ...) are transcribed there. `SpecMemory.v` gives the layouts. The theorems `C118_*` say, function by function, that the run from the text in any memory that holds the object ends as the hand-written model (`Streams.v`, `Slot.v`, `SizedIter.v`, `SizedSlice.v`, `SizedStr.v`) says, with the memory changed as it says and nothing else changed. Proofs: symbolic evaluation with the rules of `MemoryRules.v` and induction for the loops. Trusted: `rust2v.py`, the evaluator. Simplifications: references to structs are transparent; drop glue does not run (C62-C66 are about drops); every array type that is cast to has N elements.

### C119 — the text of the derive macros

C82-C84, C90 and C91 are about `Macro.v` and `Codegen.v`, which were transcribed by hand from `oct-macros/src`. C119 removes that step:
* `tools/rust2v.py` writes the functions of `oct-macros/src` as trees, and the templates of `quote!` as lists of tokens, holes `#x`, groups and repetitions `#( )*` (`SourceMacros.v`).
* `MacroRun.v` runs them: values of syn (`DeriveInput`, `Fields`, `Variant`, `Attribute`, paths), iterators, closures with `?`, the user's `Iterator` and `ToTokens` implementations found by name in the text, `format!`, and the rules of `quote!` (a repetition ends with the shortest of the sequences that it mentions). Whatever is not covered ends in `Lost`, which no theorem has as a result.
* `SpecMacroText.v` says which value of syn a definition of the model is (`IsInput`), and how an implementation of `Codegen.v` is written as tokens (`show_impl`).
* Proof: `MacroTextProofs.v` (`Repr`, `Discriminants`, `GenericName`), `MacroTextBodies.v` (the six bodies by rules for expressions that change no variable, repetition by induction, then `impl_derive_macro` and the three entry points).
* Simplified: each type of the model has one spelling (`spell`), integers the usual one; tokens have no spans (hygiene is in C91); a definition is what syn parsed, so that parsing itself is trusted.

**C120** (which types can fail) is proved from C10, C88 and C89. `SpecFallible.v` decides from a type whether some valid value cannot be encoded (`fallible`) and whether some octets are refused (`refusable`). The first is shown equivalent to the existence of a value that is not `Representable`, by building one; the second to the existence of a derivation of `Rejects`. An enum refuses octets if it has fewer discriminants that can be written than there are patterns of octets, by the pigeonhole principle. Decoding reads fields in order, so a field after one that cannot be read counts for nothing.

**C121 (auto traits).** `SourceTypes.v` is written by `tools/rust2v.py` from the text of every `struct` and `enum` in `oct/src`: parameters, bounds and
the types of the fields. `AutoTraits.v` states rustc's rule for the five auto traits (Send, Sync, Unpin, UnwindSafe, RefUnwindSafe): a type has the trait
if nobody implements it by hand and all its fields have it, with the rules of core for references, pointers, `Box`, `MaybeUninit`, `PhantomData`,
function pointers, arrays and tuples; `D::Error` is looked up in the headers as in C116. Nothing is assumed of type parameters but what `given` says,
which is quantified. The theorems give the exact condition for each container and error type, and, by induction over the type of the error, that every
error of encoding and decoding has all five. That core's `BorrowError` and `Infallible` have all five is part of the trusted base.

**C122 (histories of the text).** SpecHistory.v defines programs: sequences of calls of the generated text of Output, Input, Slot and SizedIter, each on a memory with the object, its buffer and anything else. The proofs (HistoryProofs.v) go by induction over the calls, with the single-call theorems of C118 as steps, and end in specifications that mention neither model nor text.

C94_exact (SpecGrounded.v, GroundedProofs.v, PropertiesGrounded.v). `Silent` and `Enters` are inductive relations on the types of fields: what is decoded from no octet, and
which definitions are begun before the first. Necessity: a silent field does not move and an entered definition passes its depth on, so a depth that suffices is an
accessibility proof. Sufficiency: induction on the octets left, then on the relation; where it is well-founded both relations are decidable, so finitely many depths
have a maximum.

**C122, SizedSlice.** SpecHistorySized.v: programs of `new`, `copy_from_slice`, `s[k] = x` and `s = s.clone()` on one variable, run through the text; a container that a call makes is moved, with its array, to the first two places. The specification is a list with a capacity. The proof (HistorySizedProofs.v) is an induction with the C118 theorems as steps, plus one lemma that a panicking index leaves the memory as it was.

**C85, C92, C100 (additions).** ErrorLinked.v: which error types are errors, by induction over the type. SpecPlain.v and PlainProofs.v embed plain types into the language of recursive types and show that the embedding means what it says. UserSafety.v ends with the exact effect on a Slot of code that exchanges the output it was given.

### C123 features and targets

A new generator, tools/cfg2v.py, writes SourceBuild.v: for each module of oct/src what it imports and defines, the variants it declares and every path that its items name, each with the `cfg` conditions around it (macros expanded, `cfg(test)` left out), and the crates that can be named (`extern crate` and Cargo.toml). SpecBuild.v says, by inductive predicates, which modules and names a build has and when a path resolves; a build is the three features and the five widths of `target_has_atomic`. `Builds` decided by a function that is proved equal to the predicate (for any crate whose globs lead to children), then computed for all 256 builds: `C123_exact`, `C123_faults`, `C123_slot`. `C123_adds` (monotone) by induction, from no condition using `not`. Names only: a build whose names resolve may still fail for other reasons, so `C123_partial` claims resolution and no more, while `C123_refuted` and the direction of `C123_exact` that rules builds out need nothing else.

C124 (SpecDocPanics.v, DocPanicProofs.v, PropertiesDocPanics.v): the documented conditions of panics are written down from the doc comments, and compared with runs of the text of the five functions in the memory of SourceMemory.v, by the equations of C118. The doc comments themselves are not parsed: the specification quotes them with their lines.

C95, exactly (SpecNesting.v, NestingProofs.v, PropertiesNesting.v): `calls k j` says that decoding definition k can begin definition j. By induction on the type, a decoder whose parts are cut off at depth n reaches the cut on some input exactly if one of the parts it can begin does; inputs are put together by locality (C15). Chains of calls then give the depth, and a pigeonhole argument the cycle.

C93, exactly (SpecRecursiveExact.v, RecursiveExact.v, PropertiesRecursiveExact.v): C104 and C13_exact at every depth, and C92 to go from one depth to any greater one.

C33, exactly (SpecBorrowExact.v, BorrowExact.v, PropertiesBorrowExact.v): the encodings of the borrowed type that are also encodings of the owned one are settled by C104 and C13_exact; all others are too long and refused.

C102, exactly (SpecExchangeExact.v, ExchangeExact.v, PropertiesExchangeExact.v): what is delivered is the encoding of a posted value (the invariant of ExchangeProofs.v), so that C104 settles what is read; the other direction posts and delivers one value in Slots of its size.

C58, exactly (NthExact.v, PropertiesNth.v): from C58_exact_partial; where nth returns an item it leaves one too many.

**Exact forms of C45, C54, C55, C56, C97.** `SpecOwnedExact.v` lists the lives a SizedSlice can have without `nth` (left as it is, converted, iterated) and their calls; `OwnedExact.v` counts the events of each, so that C55_exact is an equivalence. `SliceExact.v` derives C56_values and C56_exact from C33_values and C13_exact. `CopyExact.v` has C45_exact (the written bytes against the marked ones), C54_exact and C97_exact.

C125 (Lazy.v, SpecLazy.v, LazyProofs.v, PropertiesLazy.v): the cells are a store beside the output, with the closures called so far; the encoder is a program of output actions and looks (as in Shared.v), and other threads look at any cell between any two steps. What a cell gives (view) never changes, so that each execution has the outcome of one evaluation of the program, which is compared with encode by induction on the type; NoDup of the calls is an invariant of looking.

C126 (Guards.v, SpecGuards.v, GuardProofs.v, PropertiesGuards.v): the cells have borrows, readers, a lock and poison, and the encoder takes and drops guards as the code does, on each way out. One invariant (Fine) says of each part of the encoder that it does to the output what encode does on the shown value, restores the cells, and what it may poison or wait for; it is shown by induction on the type.

C127 (Locks.v, SpecLocks.v, LockProofs.v, PropertiesLocks.v): each thread is a program that uses its output and locks and unlocks; steps interleave. A Mutex is locked only while those that contain it are held, so that locks are taken in the order of a numbering in which contents come first (nests, an invariant of each program); a thread that waits for the lowest number that is waited for would wait for a thread that waits for a lower one. Lengths: each step lowers the number of steps left.

C128 (Cyclic.v, SpecCyclic.v, CyclicProofs.v): the encoders of recursive definitions call one another (rec_encode, def_encode); the nesting of calls is bounded by n, below which any behaviour may stand. Proved by showing that two such bounded encoders do the same as long as the output has less than b octets of room, by induction on b and the rank of the definition; encoders move forward only, and by at least an octet where `writes` says so. Refuted for a HashMap with keys of no octets that contains itself. Not modelled: the size of the stack.

C129 (SourceUnsized.v, generated; SpecUnsized.v, UnsizedProofs.v, PropertiesUnsized.v): the parameters with `?Sized` are read from the headers; size_known says that the implementation found for a type binds no parameter without it to str, CStr or a slice. Proved from C116's search by cases on the type. C129_exact goes through all types by induction: besides the bounds that C116 follows, only Cows of str, CStr and slices are lost. C129_encode_exact does the same for the encoders of one type. C116_asked and C117_asked list every other bound in the headers, so that an added `Copy` or the like is noticed. Not modelled: which types are Clone, Eq, Hash or the like.

## 3. Modelling assumptions

* `usize`/`isize` are 64 bits wide. Values are mathematical integers with the range in `wt`.
* A value is immutable while it is being encoded (except in C66).
* `std` behaves as documented; the std functions the code calls are transcribed with a comment.
* Allocation does not fail.
* The compiler checks types before anything runs: theorems about calls are for types that implement the trait (`enc_ety`, `dec_ety`). `dec_ety` has three kinds of types too many, Cows of str, CStr and slices (C129).
* Constants that overflow `usize` do not compile; `MAX_ENCODED_SIZE` is therefore an unbounded number.
* A recursive type behaves as its unfolding to sufficient depth (C92-C95); the stack is unbounded. Elsewhere types are finite terms.
* The iteration order of a hash table is the order of the list that stands for it; theorems hold for every order.

## 4. Trusted base

* Coq 8.16.1: its kernel, and `vm_compute` for the examples. No plugin beyond those of the standard distribution (`lia` and friends, which
  produce terms that the kernel checks).
* `Print Assumptions` says "Closed under the global context" for every theorem of `Properties*.v`. No axiom is used, of the standard library or any other.
  `coqchk -o` lists seven constants of Coq's own `ssr/ssrunder.v` (fields of a module type there) because the library is loaded; no theorem depends on them.
* The transcription: that the definitions of the model say what the cited Rust says. It is checked by reading, by `RepoTests.v` and `RepoTestsMore.v` (all unit tests and documented examples), and by the tests
  against wrong programs (`seeded/`).
  For the implementations of Encode, Decode and SizedEncode it is proved (C114), for the error types (C115), the headers (C116), the streams and containers (C118) and the derive macros (C119) too, on trust in `tools/rust2v.py` and `tools/cfg2v.py` (text to tree; which lines stand under which `cfg`, C123) and in the reading of Rust in
  `SourceMeaning.v` and `SourceRun.v` (meaning of a tree, with the inferred types in `holes`), `SourceText.v`, `SourceHeaders.v`, `SourceMemory.v` and `MacroRun.v`.
* The reading of Rust in `RustSyntax.v`, for C90 and C91, and in `SpecMacro.v`, for C82-C84.
* The transcriptions of std behaviour: the loops and adaptors of `IterUse.v`, `str::from_utf8`, `char::encode_utf8`, `len_utf8`, `Duration::new`, `SystemTime` on Unix, `HashMap::insert`, slice comparison and
  hashing, `Layout::array`, atomics and locks as in `Shared.v`.

## 5. What is modelled and what is not

Modelled, all of the code in:
* `oct/src/encode/output`, `oct/src/decode/input` (the safe methods);
* `oct/src/encode/encode`, `oct/src/decode/decode`, `oct/src/decode/decode_borrowed`, `oct/src/encode/sized_encode` (every implementation);
* `oct/src/error` (values, conversions, messages and sources), `oct/src/primitive_discriminant`;
* `oct/src/slot`, `oct/src/sized_slice`, `oct/src/sized_iter`, `oct/src/sized_str` (constructors, conversions, comparison, hashing, code);
* `oct-macros/src` (discriminants, representations, generics, generated bodies).

Not modelled:
* `Debug` of errors (derived); what `<str as Debug>` escapes;
* what `ToSocketAddrs` of `SizedStr` resolves to (its text, which delegates to `str`, is under C118); addresses as such (`as_ptr`/`as_mut_ptr` are modelled as reads and writes through them);
* what happens after an unsafe call that breaks its contract, other than that it is undefined;
* parsing and spans: `Macro.v` and `MacroRun.v` start from the parsed definition, `Codegen.v` ends at the syntax tree of the generated code, C119 at its tokens;
* the benchmarks crate.
