{"claims": [
{"property": "C01", "status": "proved", "theorems": ["C01_length_round_trip"], "note": "all usize lengths, any following octets"},
{"property": "C02", "status": "proved", "theorems": ["C02_length_accepts_minimal", "C02_length_accepts_all_minimal", "C02_minimal_is_shortest", "C02_length_unique"], "note": "Both directions, plus minimality against all X.690 length encodings and uniqueness."},
{"property": "C03", "status": "proved", "theorems": ["C03_length_errors", "C03_length_no_panic"], "note": "Errors characterised by an independent relation; no panic."},
{"property": "C04", "status": "proved", "theorems": ["C04_id_new", "C04_identifier_unique", "C04_identifier_shortest"], "note": "All classes, primitive/constructed and all u128 numbers."},
{"property": "C05", "status": "proved", "theorems": ["C05_id_accepts", "C05_id_accepts_only", "C05_id_errors", "C05_id_no_panic"], "note": "Acceptance and errors characterised against Spec.identifier / identifier_error."},
{"property": "C06", "status": "proved", "theorems": ["C06_number_exact"], "note": "Exact, with OverFlow exactly above u128."},
{"property": "C07", "status": "proved", "theorems": ["C07_setters", "C07_setters_read_back"], "note": "Setters on any valid identifier, with read-back."},
{"property": "C08", "status": "proved", "theorems": ["C08_int_ranges", "C08_int_contents_shortest"], "note": "All twelve integer types."},
{"property": "C09", "status": "proved", "theorems": ["C09_to_integer_accepts", "C09_to_integer_errors", "C09_to_integer_no_panic", "C09_to_integer_unchecked"], "note": "iff-characterisation of acceptance and of every error."},
{"property": "C10", "status": "proved", "theorems": ["C10_int_round_trip", "C10_int_encoding_unique"], "note": "Across types; injectivity included."},
{"property": "C11", "status": "proved", "theorems": ["C11_bool_ber", "C11_bool_der", "C11_bool_encode", "C11_bool_errors"], "note": "BER and DER."},
{"property": "C12", "status": "proved", "theorems": ["C12_der_new", "C12_der_exists", "C12_der_unique"], "note": "for every buffer layout, any uninitialised memory, values up to isize::MAX octets"},
{"property": "C13", "status": "proved", "theorems": ["C13_der_parse_accepts", "C13_der_parse_errors", "C13_der_parse_no_panic", "C13_der_parse_mut"], "note": "iff-characterisation of acceptance and of every error; parse_mut agrees."},
{"property": "C14", "status": "partial", "theorems": ["C14_parse_mut_unchanged", "C14_der_parse_refuted", "C14_ber_parse_refuted", "C14_parse_leaves_suffix", "C14_exact"], "note": "statement false of DerRef::parse and BerRef::parse (refuted with witness); proved for parse_mut of both and for IdRef::parse/parse_mut. C14_exact: where a failing DerRef::parse or BerRef::parse leaves the slice: behind octets that are refused whatever follows, or that need more octets than follow; so it is left unchanged only if it was empty"},
{"property": "C15", "status": "proved", "theorems": ["C15_ber_parse_accepts", "C15_ber_parse_errors", "C15_ber_parse_no_panic", "C15_ber_parse_mut", "C15_ber_unambiguous"], "note": "Against the inductive grammar ber_value, errors against ber_error; the grammar is unambiguous."},
{"property": "C16", "status": "proved", "theorems": ["C16_ber_extends_der", "C16_only_indefinite_added"], "note": "Every input; same octets and remainder."},
{"property": "C17", "status": "proved", "theorems": ["C17_der_history", "C17_der_new_history"], "note": "any operation list incl. in-place edits and clones; every intermediate value must fit in isize::MAX octets"},
{"property": "C18", "status": "proved", "theorems": ["C18_ber_history_definite", "C18_ber_history_indefinite", "C18_ber_new_history"], "note": "as C17"},
{"property": "C19", "status": "proved", "theorems": ["C19_history", "C19_refines"], "note": "Octet-level model of the 24-octet struct over a heap with an arbitrary allocator; C19_refines is the operation-by-operation refinement of ModelBuf.v, C19_history the statement over all programs. Running out of memory aborts."},
{"property": "C20", "status": "proved", "theorems": ["C20_history", "C20_refines"], "note": "As C19 for the union layout (16 octets inline)."},
{"property": "C21", "status": "partial", "theorems": ["C21_id", "C21_length", "C21_ber", "C21_schedules", "C21_der_refuted", "C21_der_partial", "C21_der_greedy_partial", "C21_der_exact"], "note": "Id, Length and Ber proved for all readers that deliver the same octets without failing. Refuted for Der::parse, which reads the contents with one read call: C21_der_refuted; C21_der_partial says the only deviation is a spurious UnterminatedBytes, C21_der_greedy_partial that there is none for readers that fill the buffer. C21_der_exact says exactly for which schedules the value is returned: those that deliver the contents in one piece."},
{"property": "C22", "status": "proved", "theorems": ["C22_id", "C22_der", "C22_ber", "C22_der_errors", "C22_ber_errors"], "note": "Same results and rest; error correspondence stated too. Inputs are at most isize::MAX octets."},
{"property": "C23", "status": "proved", "theorems": ["C23_id", "C23_length", "C23_der", "C23_ber", "C23_back_to_back"], "note": "For every reader keeping the contract of read (failures included), whatever the fuel."},
{"property": "C24", "status": "partial", "theorems": ["C24_derived", "C24_derived_known", "C24_derived_key_refuted", "C24_provided", "C24_generic", "C24_hash_map_refuted", "C24_hash_map_exact"], "note": "Provided types at any nesting: lengths are announced and right (C24_provided). Generic implementations keep right-or-missing announcements (C24_generic), except HashMap over keys that announce nothing, which announces a wrong length (C24_hash_map_refuted). Types with derives: C24_derived (right or missing), C24_derived_known (no conversions: announced and right); a derived key with a converted field triggers the HashMap bug (C24_derived_key_refuted). C24_hash_map_exact says which wrong length a HashMap announces."},
{"property": "C25", "status": "proved", "theorems": ["C25_derived", "C25_entry_points", "C25_provided"], "note": "For any implementation whose announcements are right or missing, and for all provided types. Contents up to isize::MAX octets. Types with derived implementations: C25_derived."},
{"property": "C26", "status": "proved", "theorems": ["C26_derived", "C26_round_trip", "C26_equality"], "note": "All provided types at any nesting, BTree with any lawful order, hash tables with any placement. Equality is equality of representations without hash tables (C26_equality), else up to iteration order. read_der for readers that fill the buffer (see C21). Types with derived implementations: C26_derived."},
{"property": "C27", "status": "proved", "theorems": ["C27_derived", "C27_der_as_ber"], "note": "As C26; read_ber for all readers that do not fail. Types with derived implementations: C27_derived."},
{"property": "C28", "status": "proved", "theorems": ["C28_derived", "C28_canonical", "C28_injective", "C28_sets_not_canonical"], "note": "Re-serialisation and injectivity. C28_sets_not_canonical shows why sets are excluded. Types with derived implementations: C28_derived (structs and enums without conversions, sets and maps)."},
{"property": "C29", "status": "partial", "theorems": ["C29_derived_containers", "C29_derived_nested", "C29_entries_exact", "C29_maps_refused", "C29_containers", "C29_whole", "C29_nested", "C29_entries_refuted"], "note": "C29_containers is an equation for any contents, C29_nested covers every mixture of lengths at every depth. Refuted for the entries of maps: the end-of-contents octets of an indefinite-length entry are not stripped (C29_entries_refuted). Types with derived implementations: C29_derived_containers, C29_derived_nested. C29_entries_exact: an entry of indefinite length is taken exactly if it has only a key and the type of the values takes 00 00; with a key and a value it is refused, whatever the types (C29_maps_refused)."},
{"property": "C30", "status": "partial", "theorems": ["C30_indefinite_refuted", "C30_statement_refuted", "C30_partial", "C30_exact"], "note": "Refuted: Length::Indefinite never equals itself, so debug builds panic and release builds read the end-of-contents octets as contents. Partial: octet strings reject; booleans always give some error in release builds. C30_exact says what happens to every indefinite-length value: integers panic whatever the identifier in debug builds; in release builds the value is decoded as the definite one with two more octets."},
{"property": "C31", "status": "partial", "theorems": ["C31_der", "C31_ber", "C31_errors_partial", "C31_errors_refuted"], "note": "Acceptance characterised exactly for DER and BER. The claim about errors is refuted for missing data (UnterminatedBytes), and the errors carry context; C31_errors_partial is what holds. Which error is given is said exactly by C65_entries."},
{"property": "C32", "status": "proved", "theorems": ["C32_identifier", "C32_components"], "note": "Identifier equals Id::new of the documented components for every attribute the parser accepts; the emitted array is what the emitted code uses (model of id_slice)."},
{"property": "C33", "status": "partial", "theorems": ["C33_round_trip", "C33_accepts", "C33_rejects", "C33_transparent", "C33_conversions", "C33_skip_serializing_refuted", "C33_skip_deserializing_refuted", "C33_zero_identifier_refuted", "C33_der_any_identifier"], "note": "Any list of fields of provided, derived or lawful user types, any attributes: octets, round trip through DER and BER, exact acceptance (iff) of both decoders, UnmatchedId and ExtraContentsOctet. Skipped fields must be skipped on both sides and the identifier must not be 00 for BER; otherwise the property is false (the three _refuted theorems). Conversions must undo each other (C33_conversions). Recursive types are C61."},
{"property": "C34", "status": "proved", "theorems": ["C34_round_trip", "C34_values", "C34_accepts", "C34_unknown"], "note": "Any list of variants with different identifiers: octets, round trip, exact acceptance (iff), UnmatchedId. With equal identifiers the first variant is taken (C34_accepts, example)."},
{"property": "C35", "status": "proved", "theorems": ["C35_accepted", "C35_conflict"], "note": "accepted_iff covers all argument sets at all positions; which combinations conflict is taken from the documentation."},
{"property": "C36", "status": "proved", "theorems": ["C36_derived", "C36_derived_exact", "C36_prefix", "C36_ends", "C36_exact", "C36_lawful"], "note": "For every writer that honestly reports what it takes, for the writer failing after k octets exactly, for provided types and any lawful implementation. Types with derived implementations: C36_derived, C36_derived_exact."},
{"property": "C37", "status": "proved", "theorems": ["C37_error_eq", "C37_error_eq_laws"], "note": "iff-characterisation; symmetry and transitivity."},
{"property": "C38", "status": "partial", "theorems": ["C38_root_cause_refuted", "C38_root_cause_stops", "C38_root_cause_partial", "C38_foreign", "C38_exact"], "note": "Refuted: the first element of the chain of an error with context is anyhow's own context object, on which the downcast fails, so the loop breaks at once and root_cause returns the wrapper, whatever the error and the contexts. Partial: errors without context. Assumes anyhow's chain/downcast behaviour as documented there. C38_exact: what root_cause gives for every error, and when it is the library error of the chain."},
{"property": "C39", "status": "proved", "theorems": ["C39_length_order"], "note": "All pairs of lengths."},
{"property": "C40", "status": "proved", "theorems": ["C40_der_framing", "C40_ber_framing", "C40_parses_concat"], "note": "Any sequence of values."},
{"property": "C41", "status": "proved", "theorems": ["C41_der_truncated", "C41_ber_truncated"], "note": "Every strict prefix."},
{"property": "C42", "status": "proved", "theorems": ["C42_der_from_iterator", "C42_ber_from_iterator_indefinite", "C42_with_id_length", "C42_with_id_length_indefinite"], "note": "Any list of items."},
{"property": "C43", "status": "partial", "theorems": ["C43_derived", "C43_derived_quiet", "C43_from_der", "C43_from_ber_release", "C43_parse", "C43_debug_refuted", "C43_quiet", "C43_quiet_simple", "C43_int_indefinite"], "note": "from_der and slice parsers never panic; from_ber and parse_ber never without debug assertions. Refuted with debug assertions: an indefinite-length primitive trips debug_assert_eq (C43_debug_refuted, C43_int_indefinite). With them it still holds on octets showing no indefinite length where a value is read (C43_quiet, C43_derived_quiet). Types with derived implementations: C43_derived."},
{"property": "C44", "status": "proved", "theorems": ["C44_edit_contents", "C44_edit_contents_indefinite", "C44_edit_class", "C44_edit_pc", "C44_edit_id_indefinite"], "note": "Definite and indefinite."},
{"property": "C45", "status": "partial", "theorems": ["C45_der_refuted", "C45_ber_refuted", "C45_der_partial", "C45_ber_partial"], "note": "Refuted: a header announcing more than isize::MAX octets panics in reserve (Der and Ber). The partial theorems characterise exactly when it does, and that no other input panics."},
{"property": "C46", "status": "proved", "theorems": ["C46_der_from_int", "C46_der_from_bool", "C46_der_from_bytes"], "note": "All values of each type."},
{"property": "C47", "status": "proved", "theorems": ["C47_id", "C47_length", "C47_der", "C47_ber"], "note": "For every reader that logs its failures."},
{"property": "C48", "status": "partial", "theorems": ["C48_le_refuted", "C48_ue_refuted", "C48_le_partial", "C48_ue_partial", "C48_le_exact", "C48_ue_exact", "C48_words_refuted"], "note": "Refuted: a buffer already on the heap passes a size above isize::MAX to realloc (both layouts). Partial: never from inline storage and never when length + additional is within isize::MAX; the same on a machine of 32 bits (C48_words_refuted), where a message can declare such a length with four octets. C48_le_exact and C48_ue_exact give the outcome of every request above isize::MAX."},
{"property": "C49", "status": "proved", "theorems": ["C49_from_vec", "C49_clone_to_owned"], "note": "Also part of the histories of C17 and C18 (operation OpVec)."},
{"property": "C50", "status": "proved", "theorems": ["C50_parse", "C50_attributes", "C50_number"], "note": "Lexing (proc_macro2) and which texts are paths (syn) are parameters."},
{"property": "C51", "status": "proved", "theorems": ["C51_le", "C51_ue"], "note": "Both layouts, raw memory. Iterators are assumed to yield the same items again when cloned (see C53)."},
{"property": "C52", "status": "partial", "theorems": ["C52_le_der_exact", "C52_ue_der_exact", "C52_le_ber_exact", "C52_ue_ber_exact", "C52_unique", "C52_le_refuted", "C52_ue_refuted", "C52_ber_refuted", "C52_le_der_partial", "C52_ue_der_partial", "C52_le_ber_partial", "C52_ue_ber_partial", "C52_le_inline_partial", "C52_ue_inline_partial"], "note": "Refuted for both layouts and both parsers: a declared length near isize::MAX, once the buffer is on the heap (a header longer than the inline storage for Der, any earlier element of an indefinite length value for Ber), makes reserve call realloc with a size its contract forbids. Partial: for every honest reader and every stream on which the octet-level parser does not panic, the raw run gives the same value or error, touches nothing else and leaks nothing; with the header still inline a huge length is a clean panic. C52_*_exact: for every stream on which the parser does not return, the header at fault and whether the outcome is a panic or undefined behaviour; C52_unique: there is only one such header."},
{"property": "C53", "status": "partial", "theorems": ["C53_le_exact", "C53_ue_exact", "C53_le_indefinite_exact", "C53_ue_indefinite_exact", "C53_le_refuted", "C53_ue_refuted", "C53_le_partial", "C53_ue_partial"], "note": "Refuted for both layouts: capacity is computed from the clone, the items of the iterator are written unchecked. Partial: if the iterator yields no more octets than its clone the call is safe, and the octets are the header for the clone's total followed by the items (a well-formed TLV iff the totals agree). C53_*_exact (also for indefinite length): more items than the clone yielded are harmless while they fit in the room made (inline storage, or what the clone called for); the first item that does not is an out-of-bounds write. On the little-endian layout a value of exactly 24 octets overwrites the length octet inside the struct instead (C53_le_24_ex)."},
{"property": "C54", "status": "partial", "theorems": ["C54_le_any", "C54_ue_any", "C54_le_refuted", "C54_ue_refuted", "C54_le_partial", "C54_ue_partial"], "note": "Refuted for both layouts: Der::parse trusts the count that Read::read returns, so a reader that reports octets it did not write exposes memory. Partial: for honest readers the value is a prefix of the stream and the reader stands right after it. C54_*_any: whatever the call writes and reports, the result is an error, or the header, the octets written and residue to the announced length; nothing else in memory changes."},
{"property": "C55", "status": "proved", "theorems": ["C55_equality", "C55_hash", "C55_order", "C55_total"], "note": "A hasher is what it is fed; slices feed their length and their octets."},
{"property": "C56", "status": "partial", "theorems": ["C56_number_refuted", "C56_partial", "C56_exact_partial", "C56_exact"], "note": "Refuted: 16384 (1f 81 80 00) sorts before 16383 (1f ff 7f), since the order is that of the octets. Partial: ordered by class, then primitive before constructed, then by number when the identifiers have equally many octets or one number is below 31; equal iff all components are equal. C56_exact_partial settles the remaining case, numbers from 31 of different lengths: the leading groups of seven bits decide. C56_exact gives the comparison of every pair in one formula."},
{"property": "C57", "status": "proved", "theorems": ["C57_universal", "C57_predicates"], "note": "All eleven constants of IdRef and every predicate."},
{"property": "C58", "status": "proved", "theorems": ["C58_conversions", "C58_string", "C58_compare"], "note": "Cow modelled by its two cases."},
{"property": "C59", "status": "partial", "theorems": ["C59_exact", "C59_constructed_refuted", "C59_wrong_refuted", "C59_partial"], "note": "Full statement refuted: the contents of a constructed string are returned as they are, segment headers included, so it is right only for the empty string (C59_constructed_refuted, C59_wrong_refuted). Proved: primitive forms, the empty constructed string, rejection of indefinite OCTET STRING and of constructed strings in DER. C59_exact: what is decoded, for every identifier, length and contents."},
{"property": "C60", "status": "partial", "theorems": ["C60_complete_refuted", "C60_sound_refuted", "C60_partial", "C60_exact"], "note": "Full statement refuted both ways: lengths with more octets than needed are refused; primitive values of indefinite length, constructed values with arbitrary contents and 00 00 are accepted. Proved: a BER value is taken exactly or refused as RedundantBytes, and always taken if its lengths are minimal; every DER value is taken by both parsers. C60_exact: which BER values are taken, as an equivalence."},
{"property": "C61", "status": "proved", "theorems": ["C61_knot", "C61_knot_exists", "C61_knot_unique", "C61_knot_unique_ser", "C61_tree_laws", "C61_tree_exists", "C61_tree_unique", "C61_tree_round_trip", "C61_tree_canonical", "C61_tree_total", "C61_json_laws", "C61_json_exists", "C61_json_round_trip", "C61_json_total"], "note": "General theorems for any recursive type (C61_knot*), and the two declared types. The stack is C75."},
{"property": "C62", "status": "proved", "theorems": ["C62_sequences", "C62_btree_set", "C62_btree_map", "C62_hash_set", "C62_hash_map"], "note": "Iff for sequences and B-tree collections; for hash collections up to the order of iteration."},
{"property": "C63", "status": "proved", "theorems": ["C63_values", "C63_sizes", "C63_transcode", "C63_transcode_converted"], "note": "The types are those of `decoded` (SpecColl): provided, derived, or the user's and sound. The size bounds exclude conversions, which can make anything; with them the encoding must be assumed to fit. Recursive types enter as the user's own."},
{"property": "C64", "status": "proved", "theorems": ["C64_serialize", "C64_deserialize"], "note": "Iff in both directions, on the semantics of the emitted code; what rustc rejects afterwards (unknown types, missing implementations) is not modelled."},
{"property": "C65", "status": "proved", "theorems": ["C65_context", "C65_primitives", "C65_elements", "C65_entries", "C65_struct", "C65_transparent", "C65_enum", "C65_conversions"], "note": "Iff. The messages of contexts are numbered, with the index or the name of the field. For primitives the BER length is definite (indefinite ones are C30); octet strings with any length."},
{"property": "C66", "status": "proved", "theorems": ["C66_prefix_free", "C66_injective", "C66_sequences"], "note": "For provided and derived types at any nesting. Without hash tables and derives the values are identical (C66_injective); otherwise they equal a common value up to the equality of the type (order of hash tables, skipped fields)."},
{"property": "C67", "status": "partial", "theorems": ["C67_equal_values", "C67_hash_partial", "C67_equal_refuted", "C67_order_refuted", "C67_order_partial"], "note": "Refuted: hash sets and maps are written in iteration order, so equal sets may have different octets (C67_equal_refuted) and the SET need not be in ascending order (C67_order_refuted). Proved for all types without hash tables (C67_equal_values), including structs with skipped fields. Partial: equal hash tables have the same header and the same items permuted (C67_hash_partial), and the order is that of DER exactly when the iteration order is ascending (C67_order_partial)."},
{"property": "C68", "status": "partial", "theorems": ["C68_der_all_partial", "C68_ber_all_partial", "C68_le_der_refuted", "C68_ue_der_refuted", "C68_le_ber_refuted", "C68_ue_ber_refuted", "C68_der_partial", "C68_ber_partial", "C68_ber_value_partial"], "note": "Refuted for Der and Ber and both layouts, for all constants short of those that allow isize::MAX: a header of at most ten octets makes the parser ask for the announced length at once, and a refusal aborts the process. Partial, for every honest reader: never more than the octets held or the octets up to a header plus the length it announces (C68_der_partial, C68_ber_partial); if Ber::parse reads a value, no more than its octets (C68_ber_value_partial). C68_der_all_partial and C68_ber_all_partial cover the streams on which the parser does not return as well."},
{"property": "C69", "status": "proved", "theorems": ["C69_length", "C69_length_indefinite", "C69_to_integer", "C69_unchecked", "C69_le", "C69_ue", "C69_le_id_parse", "C69_ue_id_parse"], "note": "Programs over Id, Contents and vectors on both layouts (C69_le, C69_ue); Length::to_bytes (C69_length, C69_length_indefinite); to_integer and to_integer_unchecked (C69_to_integer, C69_unchecked); Id::parse on every honest reader (C69_le_id_parse, C69_ue_id_parse). Pointer provenance inside the two-element array of from_positive is not modelled."},
{"property": "C70", "status": "proved", "theorems": ["C70_refused", "C70_written", "C70_others"], "note": "Of to_der and to_ber (C70_refused), of write_der and write_ber on every writer (C70_written), and of values no part of which is refused (C70_others). Types: partly, i.e. user-written Serialize implementations that may refuse values, in all provided collections and maps and derived structs, transparent structs, enums and conversions, nested in any way. Keys of hash maps announce their lengths (C24_hash_map_refuted)."},
{"property": "C71", "status": "proved", "theorems": ["C71_serialize", "C71_deserialize", "C71_serialize_captures", "C71_deserialize_captures", "C71_serialize_needed", "C71_serialize_types_needed", "C71_deserialize_needed", "C71_serialize_none", "C71_deserialize_none", "C71_header", "C71_pattern_shapes", "C71_constructors"], "note": "The emitted code is an expression of a small deep embedding of Rust (ModelRust: scoping, shadowing, &mut, early return, overflow, wrong kinds are Stuck), emitted function by function (ModelEmit) and evaluated; the dictionaries of C33-C36 are what it evaluates to. C71_*_captures: exactly which attributes name a variable or type parameter of the emitted method; C71_*_needed: such code does not run. C71_*_none: the macros expand exactly if ModelDerive accepts and, for Serialize of enums, no field is a raw identifier (format_ident! panics). Types and trait resolution of the compiler are not modelled, and Some, Ok, Err, None, Vec are those of the prelude."},
{"property": "C72", "status": "proved", "theorems": ["C72_der_parse", "C72_ber_parse", "C72_der_parse_ends", "C72_ber_parse_ends", "C72_iterator", "C72_der_extend", "C72_ber_extend"], "note": "Both buffer layouts. Readers are arbitrary safe code (ModelUnwind.user_reader); EOversize, the realloc above isize::MAX of C48/C52, is set apart as an outcome of its own. The iterator theorem assumes the second pass yields no more octets than the counted one, as C53 does."},
{"property": "C73", "status": "partial", "theorems": ["C73_buffer", "C73_program", "C73_der_extend", "C73_ber_extend", "C73_der_parse", "C73_ber_parse", "C73_iterator", "C73_iterator_refuted"], "note": "Refuted for from_id_iterator when the items add up to 2^64 octets or more (C73_iterator_refuted: memory unsafety from safe code in release builds); proved for buffer histories, programs, parse, extend and iterators below 2^64 octets. extend is stated for results below 2^64 octets; a buffer and a slice whose sum exceeds that cannot be in memory at once. with_id_length with a length for which there are no contents in memory is C82; the sums of serialised sizes in bsn1_serde are C80."},
{"property": "C74", "status": "proved", "theorems": ["C74_le_history", "C74_ue_history", "C74_eight", "C74_length", "C74_parse_length", "C74_unchecked", "C74_tlv_eight", "C74_der_slice", "C74_ber_slice", "C74_parts", "C74_der_stream", "C74_ber_stream", "C74_new", "C74_new_indefinite", "C74_from_iterator", "C74_tlv_history", "C74_indefinite_history"], "note": "Words of 1 to 8 octets (16, 32 and 64 bits among them): both layouts, Length and the length buffer, and the parsers, constructors, iterator constructors and operations of Der and Ber on the abstract buffer. Serialisation is C80, deserialisation C81. Requests above isize::MAX are C48; on 32 bits a header of six octets makes one (C74_stream_ex)."},
{"property": "C75", "status": "partial", "theorems": ["C75_depth", "C75_enough", "C75_enough_ser", "C75_tree", "C75_json", "C75_impls", "C75_tree_exact", "C75_json_exact", "C75_any_partial", "C75_chain", "C75_refuted", "C75_ser"], "note": "Full statement (a bound on the stack that holds for all inputs) refuted by C75_refuted, with chains of nodes. Proved: the exact number of calls for encodings of values (C75_depth for any recursive type that meets the conditions, C75_tree_exact, C75_json_exact), one call per four octets for arbitrary octets. The stack is counted in nested calls of the type's implementation; frame sizes are the compiler's."},
{"property": "C76", "status": "proved", "theorems": ["C76_plain", "C76_published", "C76_equal", "C76_context", "C76_alternate", "C76_others", "C76_numbers", "C76_elements", "C76_entries", "C76_fields", "C76_debug", "C76_debug_length"], "note": "Texts of the ten plain errors, of the contexts added by collections and derived code, and of the trail of contexts; Debug of the eight holders and of Length. What std and anyhow print is modelled from their documentation; texts of i/o and foreign errors are parameters."},
{"property": "C77", "status": "proved", "theorems": ["C77_le_programs", "C77_ue_programs", "C77_writes", "C77_reads", "C77_le", "C77_ue", "C77_le_progress", "C77_ue_progress"], "note": "Both layouts, any number of threads and interleavings at single heap accesses; sending, sharing, cloning and reading shared buffers. Sequentially consistent memory; the fields of a buffer are read when an operation begins and written when it returns; the allocator synchronises itself."},
{"property": "C78", "status": "partial", "theorems": ["C78_rules_stacks", "C78_rules_trees", "C78_rules_tree_retag", "C78_calls", "C78_portable", "C78_little_endian_refuted", "C78_little_endian_stacks", "C78_little_endian_trees", "C78_places", "C78_places_end", "C78_places_integers", "C78_integers_refuted", "C78_integers", "C78_octets", "C78_with_id_length", "C78_with_id_length_view", "C78_new_refuted", "C78_new", "C78_parse_mut", "C78_disassemble_mut_refuted", "C78_disassemble_mut", "C78_rules_protectors", "C78_protectors_forbid", "C78_scopes", "C78_portable_args", "C78_little_endian_args", "C78_others_args", "C78_parse_mut_args", "C78_disassemble_mut_args", "C78_views", "C78_new_views", "C78_programs", "C78_programs_little_endian"], "note": "Portable layout: every sequence of buffer operations, Der/Ber extend and truncate, and parse_mut keep to both models. Refuted: on the little endian layout as_mut_ptr goes through as_ptr(&self), so every write to inline octets is made through a pointer from a shared reference (exact conditions for whole call sequences proved); Contents::from_positive/from_negative use a pointer made before set_len (stacks) and step out of &vals[1]; disassemble_mut, mut_id, mut_contents, and so Der::new, make &mut from &. The views used for this are proved to be those of the raw-memory layouts (C78_views), so the results hold for programs on buffers in memory (C78_programs). C78_places, C78_places_end, C78_places_integers: all accesses are whole fields, or octets within the capacity. C78_portable_args, C78_little_endian_args, C78_others_args, C78_parse_mut_args, C78_disassemble_mut_args: the same results when the reference arguments of functions are protected until the functions return. No two-phase borrows."},
{"property": "C79", "status": "proved", "theorems": ["C79_convert", "C79_chain", "C79_as_mut", "C79_index", "C79_index_mut", "C79_len", "C79_bool", "C79_tag_numbers", "C79_ber_from"], "note": "All chains of the conversions, whatever the sizes and spare capacities; AsMut and Index read and write exactly the selected octets. SliceIndex of std is modelled for usize and the six range types. That the references alias the octets they are made from is C78."},
{"property": "C80", "status": "partial", "theorems": ["C80_octets", "C80_to_der", "C80_dev_write", "C80_release_write_refuted", "C80_eight", "C80_eight_lengths", "C80_eight_maps"], "note": "Refuted part: in the release profile, write_der to a writer that is not a Buffer, of a value whose contents have more than isize::MAX octets (two strings whose DER values have 2^(8w-1) octets each are written under the header of an empty sequence). On 64 bits such values do not fit in memory; on 32 bits they do, as the two strings may be the same borrowed slice. All else is proved: to_der in both profiles for values of any size, write_der in the dev profile for any size, write_der in the release profile up to isize::MAX. C80_eight ties the model to that of the other claims."},
{"property": "C81", "status": "proved", "theorems": ["C81_plain", "C81_collections", "C81_maps", "C81_struct", "C81_enum", "C81_from", "C81_accepted", "C81_parse", "C81_from_value", "C81_read_der", "C81_read_ber", "C81_round_trip", "C81_any_ber", "C81_eight", "C81_eight_collections", "C81_eight_maps", "C81_eight_derived"], "note": "One theorem per way to build an implementation (C81_plain, C81_collections, C81_maps, C81_struct, C81_enum, C81_from), each from implementations of the parts that agree, so that any provided or derived type is covered by composing them, as in C81_example; user-defined implementations are covered if they agree. C81_parse, C81_from_value, C81_read_der and C81_read_ber are the functions of the crate; C81_round_trip joins it to C80, also between two machines."},
{"property": "C82", "status": "partial", "theorems": ["C82_with_id_length", "C82_with_id_length_indefinite", "C82_new", "C82_iterator", "C82_release_with_id_length", "C82_release_with_id_length_indefinite", "C82_release_new", "C82_release_short", "C82_release_overrun", "C82_release_refuted"], "note": "Refuted part: with_id_length and with_id_length_indefinite in the release profile where the size of the value is 2^64 or more. They do not panic as documented: C82_release_short, a value of only the first octets of its header; C82_release_overrun, a write beyond the buffer; C82_release_refuted has witnesses of both, such as with_id_length(octet_string, usize::MAX), and of a little-endian buffer that takes the identifier for a pointer. All else is proved. rel_from_iterator is C73."},
{"property": "C83", "status": "partial", "theorems": ["C83_value", "C83_der_error", "C83_ber_error", "C83_cases", "C83_refuted"], "note": "Refuted: the documentation's sentence that the results are the same (C83_refuted: BER contents cut off, and lengths no allocation can have). Proved: what the results are in every case (C83_value, C83_der_error, C83_ber_error; C83_cases: there are no others)."},
{"property": "C84", "status": "partial", "theorems": ["C84_program", "C84_profiles", "C84_new", "C84_iterator", "C84_parse", "C84_refuted", "C84_with_id_length_partial", "C84_filled"], "note": "Refuted for with_id_length (C84_refuted: contents on the heap are what the allocator left). Partial: identifier, length and number of octets; C84_filled: nothing is left once the contents are written. Proved for programs (C84_program, C84_profiles), the other constructors and parse. Reading such memory through a u8 reference is itself undefined behaviour in Rust; the model gives it a value (see the trusted base). Readers reporting octets they did not write: C54."},
{"property": "C85", "status": "proved", "theorems": ["C85_program", "C85_read", "C85_same", "C85_release", "C85_profiles"], "note": "Both profiles (C85_release, for readers that write octets in every state, as u8 has it), both layouts. Readers are honest (others: C54, C72); lengths no allocation can have are left out (C45, C52). The stream is part of the step, so steps may go on with what a previous one left."},
{"property": "C86", "status": "partial", "theorems": ["C86_same", "C86_id", "C86_length", "C86_ber", "C86_count", "C86_count_ok", "C86_der_refuted", "C86_der_partial", "C86_read"], "note": "False of Der::parse (C86_der_refuted): after a value without contents it calls read once more, with an empty buffer (der.rs:187-188); a reader that fails or blocks there makes it fail, with all of the value read, where Ber::parse returns the value. C86_der_partial: the last call asks for exactly the contents, all others only for missing octets, and the last one too if there are contents. Full for Id::parse, Length::parse, Ber::parse; the number of calls for all four and every reader."},
{"property": "C87", "status": "proved", "theorems": ["C87_write", "C87_lawful", "C87_parts"], "note": "`write_all` is the one std provides; a writer with its own write_all is asked for the same octets, as one call per chunk."},
{"property": "C88", "status": "partial", "theorems": ["C88_partial", "C88_refuted", "C88_truncate_refuted", "C88_overruns", "C88_extend", "C88_truncate", "C88_to_der"], "note": "Refuted without the condition (C88_refuted, all layouts and profiles; C88_truncate_refuted for truncate in release; C88_overruns: extending every overrunning value beyond 24 octets). Partial: octets that announce no more than they have. C88_extend, C88_truncate: what they leave, also of non-minimal lengths and of octets behind the value, which are left unwritten when it is extended in release. C88_to_der: safe code gets at such octets through to_der as well."},
{"property": "C89", "status": "proved", "theorems": ["C89_any", "C89_honest", "C89_supported", "C89_write", "C89_write_supported"], "note": "C89_any: every Serialize, a program of writes that depends on the answers and may panic or catch panics, with any announced lengths; both layouts and profiles. C89_honest: the encoding, if the methods write what they announce. C89_supported: the types of bsn1_serde, provided or derived. The outcome of asking for more than isize::MAX octets is said only to be that (SpecSerRaw.refuses). C89_write, C89_write_supported: write_der with any writer."},
{"property": "C90", "status": "proved", "theorems": ["C90_der", "C90_ber", "C90_read_der", "C90_read_ber", "C90_honest"], "note": "C90_der, C90_ber: any reader that writes octets; the value that is returned is der_tlv or ber_value, in both layouts and profiles, and failures leave the memory as before. C90_read_der, C90_read_ber: any Deserialize sees only parts of such a value, the value is dropped in every case, both profiles agree. C90_honest: readers that keep the contract give read_der and read_ber of C16. Examples: readers that write nothing or report too much."},
{"property": "C91", "status": "partial", "theorems": ["C91_der", "C91_ber", "C91_any_refuted"], "note": "C91_der, C91_ber: all readers of safe code that write the octets they report and fill the buffer in read_exact; one outcome for both layouts and profiles, all allocators and heaps. For all readers it is false: C91_any_refuted, a reader that reports octets it has not written makes Der::parse and Ber::parse return what the allocator left in memory (der.rs:184-196, ber.rs:326-332). Reading such octets is undefined in Rust; the model gives them the value the allocator chose."},
{"property": "C92", "status": "proved", "theorems": ["C92_numbers", "C92_to_be", "C92_portable_refines", "C92_portable", "C92_chosen", "C92_programs", "C92_parse", "C92_layouts_differ"], "note": "C92_numbers: lengths and integers on either order are the functions the other properties are about. C92_to_be: to_be and from_be on words of any width. C92_portable, C92_portable_refines: the portable layout on both orders and both field orders. C92_chosen, C92_programs, C92_parse: the layout compiled for the machine, programs with Der and Ber, the parsers (values the parsers can hold; as in C52). C92_layouts_differ: the little-endian layout on a big-endian machine fails at 17 octets, so the choice in buffer/mod.rs:17-25 is needed. 64-bit words; 16 and 32 bit are in C74."},
{"property": "C93", "status": "proved", "theorems": ["C93_id", "C93_length", "C93_der", "C93_ber", "C93_same", "C93_read_der", "C93_read_ber", "C93_parse"], "note": "stopped is said with the slice parsers (C05, C13, C15 say what these are). read of contents in Der::parse is one call, so octets of a short read are lost with the error; see the Example. What a slice as a reader has left after a failing read_exact depends on the version of std; the model takes the default read_exact."}
]}
