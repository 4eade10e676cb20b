{"id": "C01", "title": "Definite length octets round-trip", "statement": "For every length n representable in usize, Length::parse applied to Length::Definite(n).to_bytes() followed by any further octets returns Definite(n) and leaves exactly those further octets unread; the same holds for Indefinite.", "quantifier": "every n < 2^64 and every trailing byte string", "why_tests_cant": "2^64 lengths and unboundedly many suffixes; the encoder has an off-by-one hazard at each of 9 octet-count boundaries.", "anchors": ["bsn1/src/length.rs: Length::parse, Length::to_bytes, parse_length"]}
{"id": "C02", "title": "Accepted length octets are the X.690 minimal form and unique", "statement": "Whenever Length::parse succeeds, the consumed octets are exactly the minimal X.690 8.1.3 encoding of the returned value (equivalently the output of to_bytes), so two different octet strings never denote the same length; Length::len() is the number of those octets.", "quantifier": "every byte string given to Length::parse; every length value", "why_tests_cant": "A DER canonicity claim: it must hold of every accepted byte string, not of sampled ones.", "anchors": ["bsn1/src/length.rs: parse_length, Length::len, Length::to_bytes"]}
{"id": "C03", "title": "Length parser: exact error classification, no panic", "statement": "Length::parse on any byte string returns (never panics) and fails precisely so: UnterminatedBytes iff the octets end before the length is complete, RedundantBytes iff the long form is not minimal, OverFlow iff the long form announces more than 8 octets.", "quantifier": "every byte string", "why_tests_cant": "Absence of panics and exactness of each error need all inputs.", "anchors": ["bsn1/src/length.rs: parse_length", "bsn1/src/misc.rs: read_u8"]}
{"id": "C04", "title": "Identifier construction conforms to X.690 and reads back", "statement": "For every class, P/C flag and tag number up to u128::MAX, Id::new yields octets that satisfy X.690 8.1.2, and class(), pc() and number() on it return exactly what was given.", "quantifier": "every class, every p/c flag, every tag number < 2^128", "why_tests_cant": "3*10^38 tag numbers across 19 encoding sizes.", "anchors": ["bsn1/src/identifier.rs: Id::new", "bsn1/src/identifier_ref.rs: IdRef::class, pc, number"]}
{"id": "C05", "title": "Identifier parser accepts exactly the valid identifiers", "statement": "IdRef::parse succeeds on a byte string iff some prefix is a valid minimal X.690 identifier; it then returns exactly that prefix and leaves the rest; on failure it reports UnterminatedBytes or RedundantBytes accurately and leaves the caller slice untouched. No panic.", "quantifier": "every byte string (identifiers of unbounded length)", "why_tests_cant": "The loop is unbounded: identifiers may be arbitrarily long.", "anchors": ["bsn1/src/identifier_ref.rs: IdRef::parse, parse_mut, parse_id"]}
{"id": "C06", "title": "Tag number is exact or OverFlow", "statement": "IdRef::number on any valid identifier returns the exact base-128 tag number when it is below 2^128 and OverFlow exactly when it is not; it never wraps silently.", "quantifier": "every valid identifier, of any length", "why_tests_cant": "Wrap-around bugs only show at the 2^128 boundary over unbounded encodings.", "anchors": ["bsn1/src/identifier_ref.rs: IdRef::number"]}
{"id": "C07", "title": "Identifier setters touch only their component", "statement": "set_class, set_pc and set_number on a valid identifier yield a valid identifier whose named component is the requested one while the two other components are unchanged.", "quantifier": "every valid identifier, class, flag and u128 number", "why_tests_cant": "Requires all combinations of old and new encodings, including short/long transitions.", "anchors": ["bsn1/src/identifier_ref.rs: set_class, set_pc", "bsn1/src/identifier.rs: Id::set_number"]}
{"id": "C08", "title": "Integer contents are the shortest two's complement", "statement": "Contents::from(i) for every primitive integer type yields octets whose two's-complement big-endian value is i and no shorter octet string has that value (X.690 8.3).", "quantifier": "every value of i8..i128, u8..u128, isize, usize", "why_tests_cant": "Up to 2^128 values; the sign/leading-octet logic has corner cases at each octet boundary.", "anchors": ["bsn1/src/contents.rs: from_integer, from_positive, from_negative"]}
{"id": "C09", "title": "Integer decoding: exact acceptance and errors", "statement": "ContentsRef::to_integer::<T> on any octets returns v iff the octets are the shortest two's complement of v and v fits T; returns UnterminatedBytes iff empty, RedundantBytes iff not shortest, OverFlow iff shortest but outside T.", "quantifier": "every octet string, every integer type", "why_tests_cant": "All octet strings; wrap-around and sign confusion bugs hide at boundaries.", "anchors": ["bsn1/src/contents_ref.rs: to_integer, to_integer_unchecked"]}
{"id": "C10", "title": "Integer round-trip within and across types", "statement": "Encoding a value of integer type T and decoding into type U returns the same number when it fits U and OverFlow otherwise.", "quantifier": "every pair of primitive integer types and every value", "why_tests_cant": "144 type pairs times up to 2^128 values.", "anchors": ["bsn1/src/contents.rs", "bsn1/src/contents_ref.rs: to_integer"]}
{"id": "C11", "title": "Boolean contents", "statement": "BER decoding maps any single nonzero octet to true and zero to false; DER decoding accepts only 0x00 and 0xff and inverts the encoder; every other contents is rejected with the documented error.", "quantifier": "every octet string", "why_tests_cant": "All octet strings including all wrong lengths.", "anchors": ["bsn1/src/contents_ref.rs: to_bool_ber, to_bool_der", "bsn1/src/contents.rs"]}
{"id": "C12", "title": "Building a DER value and taking it apart", "statement": "For every valid identifier and contents, Der::new has exactly the octets identifier ++ minimal length ++ contents; id(), length(), contents() and disassemble() return the parts; DerRef::parse of it followed by anything returns it and leaves the rest.", "quantifier": "every valid identifier, every contents, every suffix", "why_tests_cant": "All contents lengths and identifiers; length-octet count changes with contents size.", "anchors": ["bsn1/src/der.rs: Der::new", "bsn1/src/der_ref.rs: parse, disassemble, id, length, contents"]}
{"id": "C13", "title": "DER slice parser accepts exactly the DER TLVs", "statement": "DerRef::parse succeeds iff the input starts with valid identifier ++ minimal definite length n ++ at least n octets, and returns exactly that prefix; each failure is reported with the right error (Unterminated, Redundant, OverFlow, IndefiniteLength) and there is no panic.", "quantifier": "every byte string", "why_tests_cant": "Untrusted input: must hold for every byte string.", "anchors": ["bsn1/src/der_ref.rs: DerRef::parse, do_parse"]}
{"id": "C14", "title": "A failed parse leaves the caller's slice unchanged", "statement": "As documented (\"otherwise, bytes is not updated\"), when IdRef/DerRef/BerRef parse or parse_mut fails, the caller's byte-slice variable still denotes the original bytes.", "quantifier": "every byte string on which parsing fails", "why_tests_cant": "Needs every failing input; one failing path suffices to break it.", "anchors": ["bsn1/src/identifier_ref.rs: parse, parse_mut", "bsn1/src/der_ref.rs: parse, parse_mut", "bsn1/src/ber_ref.rs: parse, parse_mut"]}
{"id": "C15", "title": "BER slice parser accepts exactly the BER grammar, to any nesting depth", "statement": "BerRef::parse succeeds iff the input starts with a definite-length TLV, or with an indefinite-length identifier followed by a sequence of complete BER items and the matching end-of-contents octets, recursively; it returns exactly that prefix.", "quantifier": "every byte string, every nesting depth", "why_tests_cant": "Unbounded recursion through a depth counter; tests only reach small depth.", "anchors": ["bsn1/src/ber_ref.rs: BerRef::parse, do_parse"]}
{"id": "C16", "title": "BER extends DER", "statement": "Whatever DerRef::parse accepts, BerRef::parse accepts with the same octets and the same remainder.", "quantifier": "every byte string", "why_tests_cant": "Relates two independently written parsers on all inputs.", "anchors": ["bsn1/src/ber_ref.rs: parse", "bsn1/src/der_ref.rs: parse"]}
{"id": "C17", "title": "Any history of Der mutations keeps a well-formed DER with the expected contents", "statement": "After any sequence of push, extend_from_slice, truncate and new on a Der, its identifier is unchanged, its contents equal those of a plain byte vector put through the same operations, its length octets are the minimal ones for that size, and the value re-parses.", "quantifier": "every operation history of any length, every argument", "why_tests_cant": "Length octets shrink/grow by memmove in place; correctness depends on the whole history and on every size boundary.", "anchors": ["bsn1/src/der.rs: push, extend_from_slice, truncate"]}
{"id": "C18", "title": "Any history of Ber mutations keeps its form", "statement": "The same as C17 for Ber; an indefinite-length Ber stays indefinite and its contents follow the byte-vector history.", "quantifier": "every operation history, definite and indefinite", "why_tests_cant": "Histories are unbounded.", "anchors": ["bsn1/src/ber.rs: push, extend_from_slice, truncate, new_indefinite"]}
{"id": "C19", "title": "Small-buffer storage behaves as a byte vector (little-endian layout)", "statement": "For every sequence of new/with_capacity/from/from_vec/push/extend/reserve/set_len/raw copy/io::Write/clone/into_vec/drop steps on any number of buffers, each within its contract (no write or length beyond the capacity asked for, no more than isize::MAX octets), visible length and octets equal those of ordinary byte vectors, across the stack-to-heap switch and heap growth; capacity is never below length nor below what was reserved; there is no out-of-range access, no use after free, no double free; memory of others is untouched; when everything is dropped nothing is leaked.", "quantifier": "every operation history, every allocator", "why_tests_cant": "Layout switches between inline and heap storage depend on history.", "anchors": ["bsn1/src/buffer/little_endian/mod.rs"]}
{"id": "C20", "title": "Small-buffer storage behaves as a byte vector (portable layout)", "statement": "Same as C19 for the layout used on other targets.", "quantifier": "every operation history", "why_tests_cant": "Not even compiled on the developer's machine; tests there never run it.", "anchors": ["bsn1/src/buffer/universal_endian/mod.rs"]}
{"id": "C21", "title": "Parsing from a reader is independent of how the reader chunks its bytes", "statement": "Id::parse, Length::parse, Ber::parse and Der::parse give the same result for any two readers that deliver the same bytes in different chunk sizes.", "quantifier": "every byte string and every chunking schedule", "why_tests_cant": "Schedules of short reads are unbounded; in-memory test readers always deliver everything at once.", "anchors": ["bsn1/src/der.rs: Der::parse", "bsn1/src/ber.rs: Ber::parse, do_parse", "bsn1/src/identifier.rs: Id::parse"]}
{"id": "C22", "title": "Streaming and slice parsers agree", "statement": "On an in-memory byte slice, Id::parse/Der::parse/Ber::parse succeed exactly when IdRef/DerRef/BerRef::parse do, with the same octets and the same remaining input.", "quantifier": "every byte string", "why_tests_cant": "Relates two implementations of one grammar on all inputs.", "anchors": ["bsn1/src/identifier.rs: Id::parse", "bsn1/src/der.rs: Der::parse", "bsn1/src/ber.rs: Ber::parse"]}
{"id": "C23", "title": "Streaming parsers never read past the value", "statement": "A successful Id/Length/Der/Ber::parse from a reader consumes exactly the octets of the returned value, so values can be read back to back from one stream.", "quantifier": "every reader content and every read schedule", "why_tests_cant": "Over-reading depends on schedule and content.", "anchors": ["bsn1/src/der.rs: Der::parse", "bsn1/src/ber.rs: Ber::parse", "bsn1/src/misc.rs: read_u8"]}
{"id": "C24", "title": "Announced lengths equal written lengths", "statement": "For every built-in or derived Serialize implementation, when id_len / der_contents_len return a number it is exactly the number of octets write_id / write_der_contents produce.", "quantifier": "every value of every type built from the provided impls and derives, nested to any depth", "why_tests_cant": "to_der trusts these numbers for the length octets: an error silently corrupts output only for particular nested values.", "anchors": ["bsn1_serde/src/ser/mod.rs: Serialize impls, der_contents_len", "bsn1_serde_macros/src/data_container.rs: der_contents_len"]}
{"id": "C25", "title": "to_der emits one well-formed DER value; all entry points agree", "statement": "to_der(v) is exactly one DER TLV with the identifier and contents octets written by the implementation and nothing left over; write_der, to_ber and write_ber give the same octets.", "quantifier": "every value of every (lawful) Serialize type", "why_tests_cant": "All values, including those with unknown lengths that take the buffering path.", "anchors": ["bsn1_serde/src/lib.rs: to_der, write_der, to_ber, write_ber"]}
{"id": "C26", "title": "Serialise then deserialise is the identity", "statement": "from_der(to_der(v)) == v for booleans, all integers, strings, octet strings, sequences, sets and maps of such, nested to any depth; also parse_der/read_der, which consume exactly that value.", "quantifier": "every value of every such type", "why_tests_cant": "Unbounded types and values.", "anchors": ["bsn1_serde/src/ser/mod.rs", "bsn1_serde/src/de/mod.rs", "bsn1_serde/src/lib.rs", "bsn1_serde/src/octet_string.rs"]}
{"id": "C27", "title": "BER decoding of DER output", "statement": "from_ber(to_der(v)) == v for the same types.", "quantifier": "every value of every such type", "why_tests_cant": "Unbounded types and values; a separate decoder path.", "anchors": ["bsn1_serde/src/de/mod.rs", "bsn1_serde/src/lib.rs: from_ber"]}
{"id": "C28", "title": "DER decoding is canonical", "statement": "If from_der accepts one TLV as a value of bool, integer, string, octet string or sequence (nested) type, re-serialising the value yields the same TLV octets: no two DER encodings decode to the same value.", "quantifier": "every byte string, every such type", "why_tests_cant": "Malleability is about all inputs.", "anchors": ["bsn1_serde/src/de/mod.rs", "bsn1/src/contents_ref.rs"]}
{"id": "C29", "title": "Indefinite-length containers decode like definite ones", "statement": "A container TLV encoded with indefinite length decodes by from_ber to the same value as the definite-length TLV with the same items.", "quantifier": "every item list and nesting", "why_tests_cant": "Unbounded lists and nestings.", "anchors": ["bsn1_serde/src/de/mod.rs: exclude_eoc, ber_to_val, ber_to_key_val"]}
{"id": "C30", "title": "Primitive values with indefinite length are rejected", "statement": "from_ber of a bool, integer or string TLV with indefinite length returns Error::IndefiniteLength and never a value or a panic.", "quantifier": "every such byte string", "why_tests_cant": "Needs all inputs; the check is present in source, so tests on the definite path cannot tell it is effective.", "anchors": ["bsn1_serde/src/de/mod.rs: from_ber impls", "bsn1/src/length.rs: PartialEq for Length"]}
{"id": "C31", "title": "Map entries must be exactly a key and a value", "statement": "Decoding a map accepts an entry iff it is a SEQUENCE with exactly two TLVs that decode as key and value; missing or extra data is InvalidKeyValuePair.", "quantifier": "every contents octet string", "why_tests_cant": "All malformed pairs.", "anchors": ["bsn1_serde/src/de/mod.rs: der_to_key_val, ber_to_key_val"]}
{"id": "C32", "title": "Derived identifier octets are those of Id::new", "statement": "For any combination of id, tag_class, tag_pc and tag_num attributes, the identifier emitted by the derive macros is a valid identifier with the overridden components, equal to Id::new of those components.", "quantifier": "every attribute combination and every u128 tag number", "why_tests_cant": "The macro re-implements the base-128 encoder; compile-time tests cover a handful of numbers.", "anchors": ["bsn1_serde_macros/src/attribute.rs: Attribute::id", "bsn1_serde_macros/src/data_container.rs: id_slice"]}
{"id": "C33", "title": "Derived struct round-trip", "statement": "For any struct with derived Serialize/Deserialize, decoding the encoding restores every field that is not skipped, skipped fields get their default, and the decoder rejects a wrong identifier and any left-over octet.", "quantifier": "every field list with every attribute assignment, every value", "why_tests_cant": "Structs have arbitrarily many fields and attribute combinations.", "anchors": ["bsn1_serde_macros/src/data_container.rs", "bsn1_serde_macros/src/ser/mod.rs", "bsn1_serde_macros/src/de/mod.rs"]}
{"id": "C34", "title": "Derived enum round-trip and dispatch", "statement": "For any enum whose variants have pairwise different identifiers, decoding the encoding yields the same variant and fields; an unknown identifier gives UnmatchedId.", "quantifier": "every enum declaration with distinct identifiers, every value", "why_tests_cant": "Arbitrarily many variants.", "anchors": ["bsn1_serde_macros/src/ser/mod.rs: do_serialize_enum", "bsn1_serde_macros/src/de/mod.rs: do_deserialize_enum"]}
{"id": "C35", "title": "Conflicting attributes are rejected at compile time", "statement": "The attribute checker accepts an argument set iff no two arguments are from conflicting groups as documented.", "quantifier": "every subset of the attribute arguments, for every target kind", "why_tests_cant": "Thousands of combinations, each position (struct, enum, variant, field).", "anchors": ["bsn1_serde_macros/src/attribute.rs: sanitize, sanitize_as_*"]}
{"id": "C36", "title": "A failing writer receives a prefix of the right octets", "statement": "If the writer fails after accepting k octets, write_der returns an Io error and what was written is exactly a prefix (of length k) of the full encoding; if it does not fail the full encoding is written.", "quantifier": "every value and every failure point", "why_tests_cant": "Every crash point of the output.", "anchors": ["bsn1_serde/src/lib.rs: write_der", "bsn1_serde/src/ser/mod.rs"]}
{"id": "C37", "title": "Error comparison", "statement": "Comparing two errors is true exactly for two occurrences of the same non-IO, non-wrapped kind; it is symmetric and transitive, and never true for Io or Anyhow.", "quantifier": "every pair/triple of errors", "why_tests_cant": "Wrapped errors nest arbitrarily.", "anchors": ["bsn1/src/lib.rs: PartialEq for Error"]}
{"id": "C38", "title": "root_cause finds the wrapped library error", "statement": "root_cause returns the first library error in the chain of an error that has been given context any number of times, so callers can match on the underlying kind.", "quantifier": "every error and every number of context wrappings", "why_tests_cant": "Unbounded wrapping.", "anchors": ["bsn1/src/lib.rs: Error::root_cause, context"]}
{"id": "C39", "title": "Length comparison is a sound partial order", "statement": "Definite lengths compare as numbers, the indefinite length is not comparable with and not equal to anything, and == and < are mutually consistent.", "quantifier": "every pair/triple of lengths", "why_tests_cant": "All pairs.", "anchors": ["bsn1/src/length.rs: PartialEq, PartialOrd"]}
{"id": "C40", "title": "Back-to-back framing", "statement": "Parsing the concatenation of any list of encoded values repeatedly returns exactly that list and ends with empty input.", "quantifier": "every list of DER (or BER) values", "why_tests_cant": "Lists of unbounded length.", "anchors": ["bsn1/src/der_ref.rs: parse", "bsn1/src/ber_ref.rs: parse"]}
{"id": "C41", "title": "Truncated input is detected", "statement": "Every strict prefix of a valid DER/BER value is rejected by the slice parsers with UnterminatedBytes.", "quantifier": "every value and every truncation point", "why_tests_cant": "Every crash/truncation point of every value.", "anchors": ["bsn1/src/der_ref.rs: parse", "bsn1/src/ber_ref.rs: parse", "bsn1/src/length.rs", "bsn1/src/identifier_ref.rs"]}
{"id": "C42", "title": "Building from an iterator equals building from concatenated contents", "statement": "Der::from_id_iterator / Ber::from_id_iterator(_indefinite) give the same octets as concatenating the elements first; with_id_length reserves the same framing.", "quantifier": "every identifier and every list of elements", "why_tests_cant": "Lists of unbounded length.", "anchors": ["bsn1/src/der.rs: from_id_iterator, with_id_length", "bsn1/src/ber.rs: from_id_iterator, from_id_iterator_indefinite, with_id_length_indefinite"]}
{"id": "C43", "title": "Decoding untrusted bytes never panics", "statement": "from_der and from_ber on arbitrary bytes return a value or an error for every provided or derived type; likewise the slice parsers.", "quantifier": "every byte string and type", "why_tests_cant": "Robustness against every input.", "anchors": ["bsn1_serde/src/de/mod.rs", "bsn1_serde/src/lib.rs", "bsn1/src/der_ref.rs", "bsn1/src/ber_ref.rs"]}
{"id": "C44", "title": "In-place edits keep the framing", "statement": "Editing the contents or the identifier's class/flag of a Der/Ber through mut_contents, mut_id or disassemble_mut leaves the length octets and the other part unchanged, so the value still parses and disassembles into the edited parts.", "quantifier": "every value and every in-place edit", "why_tests_cant": "All edits of all values.", "anchors": ["bsn1/src/der_ref.rs: mut_id, mut_contents, disassemble_mut", "bsn1/src/ber_ref.rs: mut_id, mut_contents, disassemble_mut"]}
{"id": "C45", "title": "Streaming parsers survive hostile lengths", "statement": "Der::parse and Ber::parse on a reader whose header announces any length return an error (not a panic or abort) when the data is not there.", "quantifier": "every byte stream", "why_tests_cant": "Attacker-chosen 64-bit length fields.", "anchors": ["bsn1/src/der.rs: Der::parse", "bsn1/src/ber.rs: do_parse", "bsn1/src/buffer/little_endian/mod.rs: reserve"]}
{"id": "C46", "title": "From conversions give the right universal TLV", "statement": "Der::from (and Ber::from) of a bool, any primitive integer, &str or &[u8] is the DER TLV with the universal identifier of that type (01, 02, 0c, 04) and the canonical contents; DerRef::boolean agrees with Der::from(bool).", "quantifier": "all values of the twelve integer types, both booleans, all strings and byte slices that fit in memory", "why_tests_cant": "value space is unbounded", "anchors": ["bsn1/src/der.rs:508-613", "bsn1/src/ber.rs:694-817", "bsn1/src/der_ref.rs:28-60"]}
{"id": "C47", "title": "A failure of the reader is reported, and only then an I/O error is returned", "statement": "If a read call fails during Id/Length/Der::parse the result is exactly that I/O error and no further call is made; Ber::parse may only retry Interrupted. Conversely an I/O error is returned only if the reader failed with it (or, for Ber, at end of file with UnexpectedEof).", "quantifier": "every reader, every sequence of deliveries and failures", "why_tests_cant": "Failures can occur at any of unboundedly many read calls.", "anchors": ["bsn1/src/misc.rs: read_u8", "bsn1/src/der.rs: Der::parse", "bsn1/src/ber.rs: do_parse"]}
{"id": "C48", "title": "Reserving room never breaks the allocator's contract", "statement": "Buffer::reserve (safe code) with any argument makes room, panics or aborts; it never calls the allocator outside its contract (sizes up to isize::MAX).", "quantifier": "every buffer state and every requested size", "why_tests_cant": "No test can allocate near isize::MAX; system allocators happen to survive the bad call.", "anchors": ["bsn1/src/buffer/little_endian/mod.rs:125-157", "bsn1/src/buffer/universal_endian/mod.rs:64-76, 241-259"]}
{"id": "C49", "title": "Octets survive moves between buffers, slices and vectors", "statement": "from_vec_unchecked (with any spare capacity), from_bytes_unchecked/to_owned, clone and into_vec keep the octets exactly, and the resulting value can be edited further like any other.", "quantifier": "every octet string, every capacity, every later history", "why_tests_cant": "Capacity and content vary independently; inline and heap storage take different paths.", "anchors": ["bsn1/src/der.rs: from_bytes_unchecked, from_vec_unchecked, into_vec", "bsn1/src/ber.rs", "bsn1/src/buffer/mod.rs: from_vec, into_vec, Clone"]}
{"id": "C50", "title": "Attribute arguments are parsed as documented", "statement": "The tokens of #[bsn1_serde(...)] are accepted exactly when they are a list of documented arguments with documented values, each argument at most once; the parsed attribute holds exactly those values (numbers in decimal, 0b, 0o or 0x notation below 2^128, quoted paths), and at most one bsn1_serde attribute is allowed per item.", "quantifier": "every token list, every literal text", "why_tests_cant": "The grammar has infinitely many inputs; the compile tests use a dozen.", "anchors": ["bsn1_serde_macros/src/attribute.rs: Attribute::parse, try_from, parse_tag_num_value, parse_path"]}
{"id": "C51", "title": "Programs over Der, Ber and Vec are memory safe and see the right octets", "statement": "For every sequence of new, new_indefinite, from_id_iterator, from borrowed, extend, push, truncate, in-place edits through mut_contents, clone, Der to Ber, into_vec, from_vec_unchecked and drop on any number of variables, run on the raw memory of the buffers: every access is inside owned memory, every variable shows the octets of the identifier and contents the steps describe, memory of others is untouched, and once everything is dropped nothing is leaked. The only other outcome is an allocator out of memory.", "quantifier": "every program, every allocator, both buffer layouts", "why_tests_cant": "Safety of the unsafe code depends on the order of steps and on where the inline storage ends; tests see a few programs on one allocator.", "anchors": ["bsn1/src/der.rs:59-119, 291-310, 375-492", "bsn1/src/ber.rs:76-148, 234-249, 470-489, 601-684", "bsn1/src/buffer"]}
{"id": "C52", "title": "Parsing from a stream is memory safe and leaks nothing", "statement": "Der::parse and Ber::parse (safe code) never access memory outside what they own and never call the allocator outside its contract, whatever octets and errors the reader delivers in whatever pieces; on success the value holds exactly the octets read and nothing else in memory changed; on error every allocation is released.", "quantifier": "every octet stream, every reader, every allocator, both buffer layouts", "why_tests_cant": "The failures need lengths near isize::MAX after the buffer moved to the heap, and errors in the middle of nested values.", "anchors": ["bsn1/src/der.rs:169-198", "bsn1/src/ber.rs:303-342", "bsn1/src/misc.rs:40-50", "bsn1/src/buffer"]}
{"id": "C53", "title": "from_id_iterator is safe for every iterator", "statement": "Der::from_id_iterator and Ber::from_id_iterator (safe code) stay inside the memory they own for every Clone iterator, also one whose clone yields other items than itself.", "quantifier": "every iterator and clone, every allocator, both buffer layouts", "why_tests_cant": "Ordinary iterators agree with their clones; only an adversarial Clone shows the unchecked write.", "anchors": ["bsn1/src/der.rs:291-310", "bsn1/src/ber.rs:470-489", "bsn1/src/buffer/mod.rs"]}
{"id": "C54", "title": "A parsed value consists of octets of the stream", "statement": "The octets of a value returned by Der::parse (safe code) come from the reader; they never depend on what the allocator left in memory, whatever number of octets Read::read reports.", "quantifier": "every reader, every allocator, both buffer layouts", "why_tests_cant": "The memory contents before the read are usually zero or recycled; a test cannot tell residue from data.", "anchors": ["bsn1/src/der.rs:169-198"]}
{"id": "C55", "title": "Owned and borrowed values compare and hash alike", "statement": "Identifiers, Der, Ber and their borrowed forms are equal, ordered and hashed by their octets alone, whichever side is owned; so lookups through Borrow work, equal values have equal hashes, and cmp is a total order consistent with equality.", "quantifier": "every pair of values, whatever spare capacity and storage the owned ones have", "why_tests_cant": "The spare capacity and history of a buffer are invisible to a test; order laws quantify over triples.", "anchors": ["bsn1/src/buffer/mod.rs", "bsn1/src/identifier.rs", "bsn1/src/identifier_ref.rs", "bsn1/src/der.rs", "bsn1/src/ber.rs"]}
{"id": "C56", "title": "Identifiers are ordered by class, kind and number", "statement": "Comparing identifiers orders them by class, then primitive before constructed, then by tag number.", "quantifier": "every pair of valid identifiers", "why_tests_cant": "The order holds for all small numbers and fails only between numbers of different encoded length.", "anchors": ["bsn1/src/identifier_ref.rs", "bsn1/src/identifier.rs"]}
{"id": "C57", "title": "Well-known identifiers and predicates are right", "statement": "IdRef::boolean(), integer(), sequence() and the others are the universal identifiers X.680 assigns, equal to what Id::new builds from class, kind and number; is_universal, is_primitive and the like answer true exactly for identifiers of that class or kind.", "quantifier": "every constant; every valid identifier", "why_tests_cant": "A predicate is wrong or right per mask bit, over all tag numbers.", "anchors": ["bsn1/src/identifier_ref.rs:225-565"]}
{"id": "C58", "title": "OctetString conversions lose nothing", "statement": "Every conversion of bytes or text to OctetString and back returns the same octets, borrowed or owned; conversion to String succeeds exactly for UTF-8 and then returns the same octets; comparison and hash do not see whether the octets are borrowed.", "quantifier": "every octet string", "why_tests_cant": "UTF-8 validity is a property of all octet strings; tests sample a few.", "anchors": ["bsn1_serde/src/octet_string.rs"]}
{"id": "C59", "title": "Constructed strings decode to the concatenation of their segments", "statement": "Deserialising an OCTET STRING or UTF8String from BER gives the octets of the value X.690 assigns to the encoding: those of a primitive encoding, or, for a constructed one, those of its segments one after the other.", "quantifier": "every BER form of a string, to any nesting of segments, definite and indefinite", "why_tests_cant": "Tests use primitive strings; the constructed identifier is accepted, so nothing fails visibly.", "anchors": ["bsn1_serde/src/octet_string.rs: from_ber", "bsn1_serde/src/de/mod.rs: impl Deserialize for String"]}
{"id": "C60", "title": "BerRef::parse accepts exactly the BER encodings of X.690", "statement": "BerRef::parse accepts a string of octets as one value iff it is a BER encoding by the whole grammar of X.690 8.1: any definite length octets, indefinite length only if constructed, and constructed contents that are values themselves.", "quantifier": "every byte string, every nesting depth", "why_tests_cant": "An infinite grammar on both sides; the differences lie in forms that the tests' encoder never writes.", "anchors": ["bsn1/src/ber_ref.rs: parse, do_parse", "bsn1/src/length.rs: parse_length", "bsn1/src/der_ref.rs: parse"]}
{"id": "C61", "title": "Recursive types: derived implementations exist, round-trip and never panic", "statement": "For a type whose derived Serialize and Deserialize refer to themselves through a collection (struct Tree { value: i32, children: Vec<Tree> }; enum Json { Num(i32), Arr(Vec<Json>), Obj(BTreeMap<String, Json>) }): implementations that are what the derives make of themselves exist and are determined by that equation; every well-formed value of any depth serialises to its DER encoding and is read back equal from that DER and from any BER form of it with definite or indefinite lengths; decoding any octets as DER returns a value or an error (no panic, termination), likewise BER in release builds or without indefinite lengths; for Tree, only the DER of a tree is accepted as DER. In general, implementations made of themselves obey the laws as soon as one level does and decoding only recurses on shorter contents.", "quantifier": "all values of any depth; all octet strings; all implementations satisfying the equation; all build modes", "why_tests_cant": "Nesting is unbounded and the implementations are defined in terms of themselves: termination and correctness need induction on depth and on the length of the contents, not examples of a few depths", "anchors": ["bsn1_serde_macros/src/ser/mod.rs:121-228", "bsn1_serde_macros/src/de/mod.rs:118-225", "bsn1_serde/src/de/mod.rs:312-334", "bsn1_serde/src/ser/mod.rs:390-415"]}
{"id": "C62", "title": "Equal elements and keys in decoded collections", "statement": "A decoded Vec, LinkedList or VecDeque is exactly its elements in order. A decoded set holds, of equal elements, the first; a decoded map holds, of equal keys, the first with the last value. B-tree collections come out strictly increasing, hash collections without equal elements, and nothing else is in them.", "quantifier": "every element implementation, every total order or equivalence, every contents octets, DER and BER", "why_tests_cant": "Duplicates can be anywhere among arbitrarily many elements, and equality is the user's.", "anchors": ["bsn1_serde/src/de/mod.rs: Deserialize for Vec, LinkedList, VecDeque, BTreeSet, HashSet, BTreeMap, HashMap"]}
{"id": "C63", "title": "What is decoded is a value, and can be encoded again", "statement": "Whatever octets a provided or derived type accepts, the result is a value of the type at every depth (in range, UTF-8, sorted or distinct). Without conversions, its DER is no longer than the DER it came from and at most five times as long as the BER it came from, so that decoding and encoding again succeeds and gives DER that decodes to an equal value.", "quantifier": "every type built from provided implementations and derive, every octet string", "why_tests_cant": "Hostile input of any shape and any nesting of types.", "anchors": ["bsn1_serde/src/de/mod.rs", "bsn1_serde/src/ser/mod.rs", "bsn1_serde_macros/src/data_container.rs", "bsn1_serde/src/lib.rs: to_der, parse_ber, parse_der"]}
{"id": "C64", "title": "Which declarations derive takes", "statement": "derive(Serialize) and derive(Deserialize) succeed on a declaration exactly when: the attribute of the container parses, holds only arguments allowed on a container and none that conflict; and either it names a conversion for that direction, or the declaration is a struct whose attribute suits a struct, whose fields' attributes parse and suit a field, and which, if transparent, has exactly one field not skipped in that direction, or it is an enum whose attribute suits an enum and all of whose variants and fields have fitting attributes. Unions are never taken. Anything else is a compile error.", "quantifier": "all token sequences in attributes, all structs, enums and unions with any fields and variants", "why_tests_cant": "compile-fail tests show single rejected declarations; the property covers every combination of arguments at every place, and says that nothing else is rejected", "anchors": ["bsn1_serde_macros/src/ser/mod.rs:22-228", "bsn1_serde_macros/src/de/mod.rs:22-225", "bsn1_serde_macros/src/data_container.rs:41-83", "bsn1_serde_macros/src/attribute.rs"]}
{"id": "C65", "title": "The error of decoding is that of the first place that fails", "statement": "When from_der, from_ber and the parsers built on them return an error, it is determined by the first place at which decoding cannot go on, wrapped in the context of that place: a wrong identifier; for primitives the contents; for collections the first element that is no value or does not decode, with its index; for maps the first entry that is not a SEQUENCE of a key and a value or of which one does not decode; for derived structs the first field that is no value, does not decode or does not convert, with its name, or octets after the last field; for enums that of the first variant with the identifier, or UnmatchedId if there is none; for conversions the error of the other type or of the conversion. Conversely each such failure gives that error.", "quantifier": "all octets, identifiers and lengths (definite lengths being right), all element types and derived types", "why_tests_cant": "the space of malformed inputs is unbounded and each test sees one error; the property is an equivalence between the error returned and the place of the first failure", "anchors": ["bsn1_serde/src/de/mod.rs:40-780", "bsn1_serde/src/octet_string.rs:63-80", "bsn1_serde_macros/src/data_container.rs:336-692", "bsn1_serde_macros/src/de/mod.rs:61-225"]}
{"id": "C66", "title": "Encodings tell values apart", "statement": "If the octets of one value of a type followed by some octets equal the octets of another value of the type followed by some octets, then both values have the same encoding, the rest is the same, and both equal one and the same value of the type (what the octets decode to). In particular no encoding is a proper prefix of another, and values written one after another can be told apart.", "quantifier": "all types whose Serialize/Deserialize is provided or derived, at any nesting; all values and trailing octets", "why_tests_cant": "injectivity relates all pairs of values of unboundedly nested types; tests compare a few pairs", "anchors": ["bsn1_serde/src/ser/mod.rs:40-690", "bsn1_serde/src/lib.rs:32-120", "bsn1_serde_macros/src/data_container.rs:85-335"]}
{"id": "C67", "title": "Equal values have equal encodings, and sets are the DER of SET OF", "statement": "Values that are equal have the same octets, and the items of a SET appear in the ascending order X.690 11.6 asks for.", "quantifier": "all types whose Serialize/Deserialize is provided or derived, at any nesting; all pairs of equal values, all iteration orders of hash tables", "why_tests_cant": "the iteration order of hash tables is random per process; a test sees one order and mostly tables of one element", "anchors": ["bsn1_serde/src/ser/mod.rs:469-690", "bsn1_serde_macros/src/data_container.rs:85-335"]}
{"id": "C68", "title": "Memory asked for is in proportion to the octets received", "statement": "There are constants such that Der::parse and Ber::parse, reading from a stream that holds n octets, never ask the allocator for more than a constant multiple of n plus a constant; running out of memory is then the fault of the data received, not of what a header announces.", "quantifier": "all streams, readers, allocators and both buffer layouts", "why_tests_cant": "a test would have to watch the allocator, and a length large enough to matter either succeeds lazily or aborts the test process", "anchors": ["bsn1/src/der.rs:169-198", "bsn1/src/ber.rs:303-342", "bsn1/src/buffer/little_endian/mod.rs:125-157", "bsn1/src/buffer/universal_endian/mod.rs:241-259"]}
{"id": "C69", "title": "Lengths, identifiers and contents keep to their memory", "statement": "Whatever sequence of Id::new, Id::from, set_class, set_pc, set_number, Contents::from (integers, booleans, octets, vectors), edits through as_mut, clones and drops a program performs, every variable shows the octets X.690 gives its value, nothing outside the allocations and the integers on the stack is read or written, nothing is freed twice or leaked, and the only other end is running out of memory. Length::to_bytes stays inside its nine-octet buffer for every length, ContentsRef::to_integer writes only inside the integer for every type and every contents (to_integer_unchecked for contents its safety section allows), and Id::parse gives back all memory on every error of every stream.", "quantifier": "all programs, numbers, integers of the twelve built-in types, contents, streams, readers, allocators and both buffer layouts", "why_tests_cant": "an out-of-bounds read or a leak gives the right answer in a test; the numbers and lengths that reach the edge of the storage are a vanishing part of the inputs", "anchors": ["bsn1/src/length_buffer.rs:27-101", "bsn1/src/length.rs:94-128", "bsn1/src/identifier.rs:56-89", "bsn1/src/identifier.rs:183-217", "bsn1/src/contents.rs:35-122", "bsn1/src/contents_ref.rs:91-166"]}
{"id": "C70", "title": "A value with a part that cannot be serialised is not serialised", "statement": "If Serialize of a part of a value (an element, a key, a value of an entry, a field that is not skipped, what a conversion makes of one) refuses it with an error, then to_der, to_ber, write_der and write_ber of the whole value return an error of such a part; they do not panic and never report success, and the writer has then got no more octets than the value would have had. Values all of whose parts are taken are serialised as usual, and skipped fields do not matter.", "quantifier": "all values of all types built from user-written implementations that refuse any values with any errors, before or after any writes and in any of the four methods, by the provided collections and maps and by derives, nested in any way; all writers", "why_tests_cant": "the errors, the method that gives them and the depth of the part are unbounded; the crate's tests have no implementation that fails", "anchors": ["bsn1_serde/src/lib.rs:32-121", "bsn1_serde/src/ser/mod.rs:395-691", "bsn1_serde_macros/src/data_container.rs:109-316", "bsn1_serde_macros/src/ser/mod.rs:22-228"]}
{"id": "C71", "title": "The code the derive macros emit does what the attributes say", "statement": "Run as Rust code, the methods that #[derive(Serialize)] and #[derive(Deserialize)] emit behave on every value, writer and input as the attributes of the type say (C33-C36), unless a path in an attribute is an identifier that the emitted method uses itself: 'to' naming self, buffer or the variable of a field of a variant; 'into' naming W; 'default' naming id, length, contents or the octets that are left. Exactly such paths are captured. The macros expand for exactly the declarations whose attributes are accepted, except that Serialize does not for enums with fields named by raw identifiers. The impl has the parameters of the type with their bounds and no defaults.", "quantifier": "all declarations (structs of all shapes, enums, unions) with all attributes, all types of fields with all implementations, conversions and functions, all names, all values, writers and inputs", "why_tests_cant": "the names and their order are unbounded, and a test would need a compiler run for every declaration", "anchors": ["bsn1_serde_macros/src/data_container.rs:41-820", "bsn1_serde_macros/src/ser/mod.rs:22-228", "bsn1_serde_macros/src/de/mod.rs:22-225", "bsn1_serde_macros/src/generics.rs:20-63"]}
{"id": "C72", "title": "A panic of the caller's code leaks and corrupts nothing", "statement": "Der::parse, Ber::parse and from_id_iterator run the caller's Read and Iterator code while they own a growing buffer. However that code behaves - it may fail, panic at any call, report more octets than it was given room for, or write fewer than it reports - the function either returns a value that owns the only new memory, or ends with an error or the panic and leaves every block of the heap as it was before the call. With readers that keep std's contract the outcome is the one of the parser on octets. extend_from_slice that panics leaves the value it was called on unchanged.", "quantifier": "For all reader states and functions on them, both buffer layouts, all allocators that keep their contract, all initial heaps, all iterators (both passes, panicking anywhere).", "why_tests_cant": "Tests use well behaved readers; none of them panics in read after the buffer has moved to the heap, and leaks are not observable from a test.", "anchors": ["bsn1/src/der.rs:169-198", "bsn1/src/der.rs:291-310", "bsn1/src/der.rs:375-429", "bsn1/src/ber.rs:303-342", "bsn1/src/ber.rs:470-489", "bsn1/src/ber.rs:601-623", "bsn1/src/misc.rs:21-66", "bsn1/src/buffer/mod.rs:201-206"]}
{"id": "C73", "title": "Release builds do what dev builds do", "statement": "Compiled with the release profile (arithmetic wraps around, debug assertions are gone), the library does what it does in the dev profile: programs using buffers, Der, Ber and vectors show the values they should, stay inside their memory and free it; Der::parse and Ber::parse end with the same result, the same reader state and the same memory, also for declared lengths whose sum with the header exceeds usize; extend_from_slice and from_id_iterator build the same octets or refuse. (Not so for from_id_iterator when the items add up to 2^64 octets or more, which needs no memory when a slice is yielded repeatedly: the dev profile panics, the release profile allocates too little and writes beyond the buffer.)", "quantifier": "Both layouts, all allocators and heaps, all histories and programs, all safe readers, all items", "why_tests_cant": "Tests run in one profile, and the difference needs lengths near 2^64", "anchors": ["bsn1/src/buffer/little_endian/mod.rs:92-167", "bsn1/src/buffer/universal_endian/mod.rs:36-51", "bsn1/src/buffer/universal_endian/mod.rs:202-265", "bsn1/src/buffer/mod.rs:98-105", "bsn1/src/der.rs:169-198", "bsn1/src/der.rs:291-310", "bsn1/src/der.rs:375-429", "bsn1/src/ber.rs:303-342", "bsn1/src/ber.rs:470-489"]}
{"id": "C74", "title": "Nothing depends on usize having 64 bits", "statement": "On a machine whose usize and pointers have any width from 8 to 64 bits, the small-buffer storage behaves as on 64 bits except for its inline capacity (three words less an octet, or two words on the portable layout): every history of buffer operations that asks for at most isize::MAX octets at a time shows the contents, lengths and capacities the specification gives, touches no other memory, frees what it allocated, and stops only when the allocator refuses a request of at most isize::MAX octets. Lengths are encoded with the same octets, within the length buffer; parsing a length gives the same result as on 64 bits, or OverFlow if the length does not fit the word, and octets so accepted are read again with the same result without checks. Der and Ber, owned or borrowed, accept the same slices with the same values and remainders as on 64 bits and refuse the others with the same error, or with OverFlow where the octets end before the declared contents; streams are read with the same result, or refused (OverFlow or a panic) when the value is larger than isize::MAX; constructors, iterator constructors, push, extend, truncate, in-place edits and clones give the same octets as long as the value fits isize::MAX octets.", "quantifier": "for all word sizes of 1 to 8 octets, allocators, histories, initial memories, lengths, readers, inputs, identifiers and contents", "why_tests_cant": "The tests run on a 64-bit machine; packed length and flag bits, leading_zeros and the byte-wise union differ on others, and 16-bit targets are hardly ever tried.", "anchors": ["bsn1/src/length.rs:94-164", "bsn1/src/length.rs:252-326", "bsn1/src/length_buffer.rs:28", "bsn1/src/buffer/little_endian/mod.rs:27-205", "bsn1/src/buffer/universal_endian/mod.rs:20-295", "bsn1/src/der_ref.rs:93-181", "bsn1/src/ber_ref.rs:88-182", "bsn1/src/der.rs:59-492", "bsn1/src/ber.rs:234-684"]}
{"id": "C75", "title": "Decoding takes one nested call per level of the value", "statement": "Decoding a type that contains collections of itself calls the type's own from_der or from_ber once inside the other for each level of nesting. On a stack with room for k such calls the encoding of a value, DER or any BER form, decodes exactly if the value has fewer than k levels below the top, and aborts the program otherwise; any octets at all need at most one call for every four octets of contents; serialising a value needs at most one call per level. (The stack needed has no bound that is independent of the input: for every k, up to sizes that do not fit in memory, 23(k+1) octets that are the DER of a tree overflow a stack with room for k calls.)", "quantifier": "for all stack sizes, trees and documents (and any recursive type with the same conditions), encodings, octets after them", "why_tests_cant": "A test decodes inputs that are a few levels deep; the depth at which the stack overflows depends on the machine, and a parser limit would have to be tried at every depth.", "anchors": ["bsn1_serde/src/de/mod.rs:316-561", "bsn1_serde/src/de/mod.rs:583-780", "bsn1_serde_macros/src/de/mod.rs:22-84", "bsn1_serde_macros/src/data_container.rs:336-444", "bsn1_serde_macros/src/data_container.rs:528-613"]}
{"id": "C76", "title": "Error texts tell what failed and where", "statement": "Displaying an error with {} gives a fixed text for each plain error, and two plain errors display the same text exactly if they compare equal. An error with contexts displays the outermost context; with {:#} it displays all contexts from the outside in and then the error, joined by colon and space. Decoding a sequence, set or map that fails displays the index of the first element that does not decode, and what failed (parsing, decoding, key, value, extra octets); a failing struct field displays the field. Different contexts never display the same text, so from the text one can tell message, index and field. {:?} of identifiers, contents, BER, DER (owned and borrowed) and lengths shows the type and all octets: two values print the same exactly if type and octets are the same.", "quantifier": "all errors and wrappings; all element types, inputs and indices; all field names without backquotes; all octets", "why_tests_cant": "Tests look at a few messages; that no two (message, index, field) combinations collide in the printed text, and that the printed index is right for every input, are statements over unbounded sets.", "anchors": ["bsn1/src/lib.rs:86-107", "bsn1/src/lib.rs:164-169", "bsn1_serde/src/de/mod.rs:598-780", "bsn1_serde_macros/src/data_container.rs:361-400", "bsn1_serde_macros/src/de/mod.rs:86-115", "bsn1/src/buffer/mod.rs:134-139"]}
{"id": "C77", "title": "Values may be used from several threads", "statement": "A buffer, and so every value that owns one, can be sent to another thread, and shared with any number of threads that only read or clone it, without locks. However the memory accesses of the threads interleave, no two of them access the same block at the same time with one of them writing, nothing undefined happens, every operation has the effect it has when nothing else runs, readers of a shared value see exactly its octets, every block is freed by whoever owns it last and memory of others is untouched. An operation that has begun returns, unless memory runs out.", "quantifier": "all numbers of threads, all allocators, all sequences of operations, sends, sharings and accesses that Rust's ownership allows, all interleavings at single memory accesses; both storage layouts", "why_tests_cant": "Send and Sync are asserted with unsafe impl; a test runs a handful of schedules and a race seldom shows", "anchors": ["bsn1/src/buffer/little_endian/mod.rs: unsafe impl Send for Buffer, unsafe impl Sync for Buffer", "bsn1/src/buffer/universal_endian/mod.rs: unsafe impl Send for Buffer, unsafe impl Sync for Buffer", "Buffer::clone, Buffer::reserve, Buffer::drop, Buffer::as_slice"]}
{"id": "C78", "title": "The pointers of the unsafe code obey the aliasing rules", "statement": "The raw pointers and references that the unsafe code makes are used only as the proposed aliasing rules of Rust (Stacked Borrows, Tree Borrows) allow: no octet is written through a pointer that was made from a shared reference, and no pointer is used after a conflicting access through the reference it came from. While a function runs, the references it has as arguments are not invalidated. This holds for every sequence of operations on a buffer of either layout, for the operations of Der and Ber that move octets, for the contents of integers, for the two mutable references that parse_mut gives, and for those that disassemble_mut, mut_id and mut_contents give, whatever is read or written through them.", "quantifier": "all sequences of buffer operations of any length and sizes, on both layouts; all integer widths up to 16 octets; all sequences of reads and writes through the returned references; every octet of every object; both models", "why_tests_cant": "a compiled test does what the machine does and cannot observe which reference a pointer came from; only an interpreter with an aliasing model could, and only on the inputs it is run on", "anchors": ["bsn1/src/buffer/little_endian/mod.rs: Buffer::as_mut_ptr, Buffer::as_ptr", "bsn1/src/buffer/universal_endian/mod.rs: Buffer::as_mut_ptr, Buffer::as_ptr", "bsn1/src/contents.rs: Contents::from_positive, Contents::from_negative", "bsn1/src/der_ref.rs: DerRef::parse_mut, DerRef::disassemble_mut, DerRef::mut_contents", "bsn1/src/der.rs: Der::new, Der::with_id_length, Der::extend_from_slice, Der::truncate", "bsn1/src/contents_ref.rs: ContentsRef::to_integer_unchecked"]}
{"id": "C79", "title": "Conversions between owned and borrowed values lose nothing", "statement": "Identifiers, contents, DER and BER values convert to each other's borrowed and owned forms, to and from slices, arrays, strings, vectors and buffers (From, AsRef, Deref, Borrow, ToOwned, from_bytes_unchecked, from_vec_unchecked, into_vec). None of these fails or changes an octet, however they are chained. What is written through AsMut or DerefMut is what the value holds afterwards, with the same length and capacity. Indexing contents by a number or any kind of range reads or writes exactly the octets at those positions and panics exactly if the index is out of range. The contents of a boolean are ff or 00. A tag number gives back the number it was made of. A BER value made of a boolean, integer, string or octets has the octets of the DER value.", "quantifier": "all chains of conversions, all octet sequences of at most isize::MAX octets, all vectors with any spare capacity, all indices and ranges of usize, all numbers below 2^128", "why_tests_cant": "tests convert a few short values once; chains across the inline and heap forms, ranges with a large or inverted end and numbers of the widest type are not tried", "anchors": ["bsn1/src/der.rs:222-255", "bsn1/src/ber.rs:686-855", "bsn1/src/ber_ref.rs:395-413", "bsn1/src/contents.rs:126-327", "bsn1/src/contents_ref.rs:239-328", "bsn1/src/identifier.rs:220-271", "bsn1/src/id_tags.rs:45-86"]}
{"id": "C80", "title": "Serialisation does not depend on the width of usize or the build profile", "statement": "On a machine whose usize has w octets, to_der returns the DER value of the value, the same octets as on 64 bits, or panics, and it panics exactly if the DER value has more than isize::MAX octets. This holds in the dev profile, where sums of usize are checked, and in the release profile, where they wrap around. write_der writes that DER value into any writer if it has at most isize::MAX octets; in the dev profile, beyond that, it writes it or panics. On 64 bits in the dev profile this is what the other claims say. Intended to hold of write_der in the release profile beyond isize::MAX too, but there the announced length wraps around and the octets written are those of another value.", "quantifier": "all w from 1 to 8, both profiles, all types built of provided, derived and lawful user-defined implementations, all values of any size, all writers", "why_tests_cant": "tests run on one 64-bit machine in one profile; values near isize::MAX of a smaller word cannot be built there, and sums that wrap around cannot be provoked", "anchors": ["bsn1_serde/src/lib.rs:32-106", "bsn1_serde/src/ser/mod.rs:321-691", "bsn1_serde_macros/src/data_container.rs:183-316", "bsn1/src/length.rs:94-180"]}
{"id": "C81", "title": "Deserialisation does not depend on the width of usize", "statement": "On a machine whose usize has w octets, reading octets (at most isize::MAX of them) as a value of any type gives what it gives on 64 bits: the same value and the same rest, or an error in both cases. The errors are the same, in the same contexts, except that where octets are missing the smaller machine may report OverFlow, the announced length being too large for it. isize and usize are read like the integers of w octets. From a stream the same holds, and the stream is left in the same state, unless the value announced has more than isize::MAX octets; then the call fails or panics. What to_der writes on one machine is read back as an equal value on another, if it fits there. The derive macro accepts the same declarations.", "quantifier": "all w from 1 to 8, all types built of provided and derived implementations and user-defined ones that agree, all octets of any length up to isize::MAX, all readers that deliver each octet once", "why_tests_cant": "tests run on one 64-bit machine; lengths that do not fit into a smaller usize, at any depth of a nested value, cannot be met there", "anchors": ["bsn1_serde/src/lib.rs:108-199", "bsn1_serde/src/de/mod.rs:61-780", "bsn1_serde_macros/src/data_container.rs:336-613", "bsn1_serde_macros/src/de/mod.rs:22-225", "bsn1/src/length.rs:94-250"]}
{"id": "C82", "title": "Constructors panic exactly where documented", "statement": "Der::new, with_id_length and from_id_iterator and Ber's constructors, definite and indefinite, panic if the whole value would take more than isize::MAX octets, as documented, and in no other case; otherwise they return a value made of the identifier, the length and the contents (as many unspecified octets as asked for in with_id_length), owning its memory alone, or abort because memory is exhausted. In builds without overflow checks the same holds as long as the size of the value is below 2^64.", "quantifier": "all identifiers, all lengths of type usize, all contents and lists of items, both buffer layouts, all allocators and states of memory, dev and release profiles", "why_tests_cant": "no test can allocate isize::MAX octets or run with every state of the allocator; sizes around isize::MAX and usize::MAX in both profiles are never tried, and a write beyond a buffer need not be seen", "anchors": ["bsn1/src/der.rs:42-119", "bsn1/src/der.rs:266-310", "bsn1/src/ber.rs:57-249", "bsn1/src/ber.rs:405-489", "bsn1/src/buffer/mod.rs:68-105"]}
{"id": "C83", "title": "parse_ber and parse_der give the results of read_ber and read_der", "statement": "From octets that start with a value, parse_ber and read_ber (parse_der and read_der) give the same result for every type, and leave the octets after the value, also if the value is none of that type. From octets that do not, both fail: with the same error, except that contents cut off are UnterminatedBytes for parse_ber and the end of the file for read_ber, and that a header announcing more than isize::MAX octets makes read_ber and read_der panic.", "quantifier": "all types, all octet strings up to isize::MAX octets, all readers that deliver them (read_der: in one piece when asked)", "why_tests_cant": "the documentation says the results are the same; tests compare them on valid input only", "anchors": ["bsn1_serde/src/lib.rs:140-199", "bsn1/src/der.rs:169-205", "bsn1/src/ber.rs:303-365"]}
{"id": "C84", "title": "What the allocator left in memory is not seen", "statement": "Whatever the allocators and what was in memory before, whichever of the two buffer layouts and profiles is in use: the same safe calls show the same octets. This is so of whole programs over Der, Ber and Vec, of new, new_indefinite, from_id_iterator(_indefinite), and of parse (value, error and rest of the stream) with an honest reader. It is not so of with_id_length and with_id_length_indefinite, safe functions whose contents are memory never written; their identifier, length and number of octets are the same, and so are all octets once the contents are written through mut_contents.", "quantifier": "two layouts, all allocators (any addresses, any leftover octets), any memory at the start, all legal programs, all identifiers and contents, all honest readers", "why_tests_cant": "Two runs of a test get their memory from the same allocator, which mostly hands out zeroed pages or leftovers of the test itself.", "anchors": ["bsn1/src/der.rs:69-119", "bsn1/src/ber.rs:150-249", "bsn1/src/buffer.rs"]}
{"id": "C85", "title": "Values read from streams are used like any others", "statement": "Programs that, beside the steps of C51, read values with Der::parse and Ber::parse from any honest readers (also where reading fails) and set the class and kind of identifiers in place through mut_id: every access is inside owned memory, every variable shows the octets of the identifier and contents that the steps describe, memory of others is untouched, nothing is leaked once all is dropped, and what is shown does not depend on allocator, layout, profile or memory at the start. Every value an honest reader can have is one of these programs.", "quantifier": "all sequences of steps on any number of variables, all honest readers and their states, all allocators, both layouts, both profiles, any memory at the start", "why_tests_cant": "A buffer left by parse has spare capacity and a past of its own (grown octet by octet); whether extend, truncate, clone and drop get along with it on every size is a matter of all histories.", "anchors": ["bsn1/src/der.rs:169-197", "bsn1/src/ber.rs:303-344", "bsn1/src/der_ref.rs:274-276", "bsn1/src/ber_ref.rs:276-278", "bsn1/src/identifier_ref.rs:617-648"]}
{"id": "C86", "title": "The stream parsers call read only while octets of the value are missing", "statement": "Id::parse, Length::parse, Der::parse and Ber::parse call Read::read only while octets of the value are missing, and never ask for more than what is missing; the number of calls is at most the number of octets delivered, plus the interrupted calls that are tried again, plus one.", "quantifier": "all readers and their states (also dishonest ones for the number of calls), all outcomes", "why_tests_cant": "A call that is one too many blocks forever on a socket or a pipe; readers over byte slices, as in the tests, answer it at once.", "anchors": ["bsn1/src/der.rs:169-197", "bsn1/src/ber.rs:303-344", "bsn1/src/misc.rs: read_u8, parse_id_length", "bsn1/src/identifier.rs: Id::parse", "bsn1/src/length.rs: Length::parse"]}
{"id": "C87", "title": "A writer is offered the octets of the encoding in turn", "statement": "Whatever the writer answers, write_der and write_ber (and write_id and write_der_contents, of provided and derived implementations) never call Write::write with an empty slice, offer only the octets of the encoding that come after those already taken, make no call after one that failed, and make at most one call for each octet of the encoding beside the interrupted ones, which are repeated.", "quantifier": "all types with provided, derived or lawful implementations, all values, all writers (also such that misreport), all outcomes", "why_tests_cant": "A call with an empty slice or one after an error is an end of file or a broken frame to sockets and compressors; writers in tests take everything and never fail.", "anchors": ["bsn1_serde/src/lib.rs:80-121", "bsn1_serde/src/ser/mod.rs: write_id, write_der_contents"]}
{"id": "C88", "title": "Octets nobody has checked do not lead out of the memory", "statement": "Der::from(Buffer::from(bytes)) (and Ber, and to_der or to_ber of any Serialize) makes a value of any octets without a check, in safe code. If the identifier, a minimal length and the length that the octets announce are together at most as many octets as there are, every sequence of extend_from_slice, truncate and writes to the contents keeps within the memory the value owns, in both profiles and on both targets, and leaves octets that announce no more than they have: it panics or ends. If they announce more, extending leaves the memory.", "quantifier": "all octets, all sequences of extend_from_slice, truncate and writes to the contents, Der and Ber, both buffer layouts, both profiles, all allocators", "why_tests_cant": "Tests build values of checked octets; writing past an allocation or a stack buffer often passes without notice, and the octets that are fatal depend on the announced length.", "anchors": ["bsn1/src/der.rs:375-429", "bsn1/src/der.rs:463-492", "bsn1/src/der.rs:496-500", "bsn1/src/ber.rs:601-623", "bsn1/src/ber.rs:668-692", "bsn1/src/buffer/mod.rs:43-49", "bsn1_serde/src/lib.rs:32-63"]}
{"id": "C89", "title": "to_der and write_der in memory give what the methods of the type wrote, and leave nothing behind", "statement": "For any implementation of Serialize in safe code - methods that write in any pieces, fail, panic, catch the panic of the writer, or announce wrong lengths - to_der (and to_ber) makes no out-of-range access unless more than isize::MAX octets are asked for, and otherwise either returns a value of exactly the octets that were written behind each other (identifier, length octets of the announced or counted length, contents) in one new allocation at most, or returns the error of the method, or passes on the panic; in the latter two cases every allocation made on the way is freed once and all other memory is as before. If the methods write what they announce, or announce nothing, and the whole fits into isize::MAX octets, the value is the DER encoding, in both profiles and on both targets, unless memory is exhausted. write_der and write_ber, with any writer that may panic too, end as the methods and the writer make them end and free the buffer of the contents in every case; of supported types they do to the writer exactly what C25 and C87 say.", "quantifier": "all implementations of Serialize (any sequence of writes depending on the answers, any result, any announced length), all writers, all supported types with or without derive, both buffer layouts, both profiles, all allocators and heaps", "why_tests_cant": "Leaks and double frees on unwinding through user code are not visible to tests that compare results, and implementations that lie or panic are not written in tests; the cases of memory limits cannot be run.", "anchors": ["bsn1_serde/src/lib.rs:32-63", "bsn1_serde/src/lib.rs:65-72", "bsn1/src/buffer/mod.rs:201-211", "bsn1/src/buffer/mod.rs:63-66", "bsn1_serde/src/lib.rs:80-106"]}
{"id": "C90", "title": "Whatever the reader does, a value that is read is well-formed", "statement": "Der::parse and Ber::parse, given any reader written in safe code - one that reports octets it has not written, more than it was asked for, panics, or overrides read_exact - never return a value that is not one complete DER value (Ber: BER value): identifier, length octets that are minimal, and as many contents octets as they announce. So read_der and read_ber hand to any Deserialize implementation only the identifier, length and contents of such a value, so a definite length is that of the contents, as the Safety section of from_ber asks for, and an indefinite one comes with items and their end mark; the result is that of from_der or from_ber on them, or the failure of the parser; the value is dropped exactly once, also when from_der panics, and the memory afterwards is as before. With a reader that keeps its contract they end as read_der and read_ber on octets.", "quantifier": "all reader states and functions on them that write octets, all Deserialize implementations, both buffer layouts, both build profiles, all allocators that keep their contract, all initial heaps", "why_tests_cant": "Readers that break the contract of std::io::Read are not written in tests, and a value that is malformed would only show later, in the unsafe code that trusts it.", "anchors": ["bsn1_serde/src/lib.rs:171-199", "bsn1_serde/src/de/mod.rs:20-46", "bsn1/src/der.rs:169-198", "bsn1/src/ber.rs:303-342"]}
{"id": "C91", "title": "What is read is what the reader wrote", "statement": "With any reader in safe code that has written the octets its read reports and has filled the buffer when its read_exact succeeds - it may report more than it was asked for, fail or panic at any call - Der::parse and Ber::parse have one outcome: the octets of the value, the error or the panic and the state of the reader do not depend on the buffer layout, the build profile, the allocator or what was in memory before. Of all readers this is false: a reader that reports octets it has not written makes both return a value of octets that were left in the memory by others.", "quantifier": "all reader states and functions on them with this contract, both layouts and profiles, all allocators that keep their contract, all initial heaps; for the refutation each layout", "why_tests_cant": "A test sees one allocator, and fresh memory is mostly zero; readers that break the contract of Read are not tested.", "anchors": ["bsn1/src/der.rs:169-198", "bsn1/src/ber.rs:303-342", "bsn1/src/misc.rs:21-66"]}
{"id": "C92", "title": "The byte order of the machine does not matter", "statement": "Length::to_bytes, From of the primitive integers for Contents, to_integer and to_integer_unchecked give the same octets and values on little-endian and big-endian machines. The buffer that is compiled for a machine (the little-endian one or the portable one) behaves on it as a byte vector, so that programs with Der and Ber and the parsers show the same values, errors and reader positions on every machine; the portable buffer does so on machines of both orders and whichever way the compiler orders the fields of HeapBuffer. The little-endian buffer would not on a big-endian machine: contents of 17 octets kept in the buffer itself would overwrite their own length.", "quantifier": "every byte order and field order, every integer type and value, every length, every history, program, reader, allocator and heap; 64-bit words", "why_tests_cant": "Tests run on the byte order of the machine at hand, which today is little endian; the portable buffer and the path of to_be and from_be that changes nothing are not even compiled there.", "anchors": ["bsn1/src/buffer/mod.rs:17-25", "bsn1/src/buffer/universal_endian/mod.rs:21-24", "bsn1/src/length.rs:115-121", "bsn1/src/contents.rs:60", "bsn1/src/contents.rs:94", "bsn1/src/contents_ref.rs:158-165"]}
{"id": "C93", "title": "A failing stream parser takes no octet more than it needs", "statement": "If Id::parse, Length::parse, Der::parse or Ber::parse fails on a reader that delivers its octets in turn, the octets taken are either refused with this error by the slice parser whatever follows them (then the rest of the stream is untouched, the same for every reader), or the stream ended or failed and they are too short for the slice parser; every shorter prefix is too short. Only Der::parse may fail with the reader's error behind a whole value, one with empty contents. read_der and read_ber of bsn1_serde leave the stream as the parser does, or right behind one whole value that is none of that type. parse_der and parse_ber leave the slice in the same two ways.", "quantifier": "every reader (any splitting, faults and interruptions), every byte stream, every failure", "why_tests_cant": "Tests look at the error and drop the reader; where the stream stands afterwards depends on every way to fail and on how the octets arrive.", "anchors": ["bsn1/src/identifier_ref.rs: parse_id", "bsn1/src/length.rs: parse_length", "bsn1/src/misc.rs: read_u8", "bsn1/src/der.rs: parse", "bsn1/src/ber.rs: parse, do_parse", "bsn1_serde/src/lib.rs: read_ber, read_der, parse_ber, parse_der"]}
