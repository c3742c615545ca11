{"id": "C01", "title": "Compact integers round-trip at any position", "statement": "For every unsigned width (u8, u16, u32, u64, u128) and every value of that width, placing the canonical SCALE compact encoding of the value anywhere in a buffer and asking for a compact at that position returns exactly that value, and the reported next position is the first byte after the encoding.", "quantifier": "all widths, all values of the width (up to 2^128-1), all bytes before and after the encoding", "why_tests_cant": "the value space is 2^128 and the search loop probes growing slices, so an off-by-one at a mode boundary or at the maximal length shows only for particular values and particular following bytes", "anchors": ["src/compacts.rs: find_compact, get_compact, MAX_COMPACT_LEN"]}
{"id": "C02", "title": "Only canonical compacts are accepted, and a failure moves nothing", "statement": "Whenever a compact is found at a position, the bytes between that position and the reported next position are exactly the canonical compact encoding of the returned value, the value fits the requested width, and the next position is inside the buffer. Whenever none is found, no prefix of the remaining data is a canonical compact encoding for that width, and the caller's position is unchanged.", "quantifier": "all buffers, positions and widths", "why_tests_cant": "needs a statement about every byte string, including non-canonical and over-long encodings, not a sample of them", "anchors": ["src/compacts.rs: find_compact, get_compact"]}
{"id": "C03", "title": "Decoding recovers every SCALE-encoded value of every type", "statement": "For every type registry in which no type directly contains itself, every mentioned type exists and no compact wraps a compact, every type in it and every value of that type, encoding the value by the SCALE rules and decoding those bytes (at any position, whatever surrounds them) succeeds, consumes exactly the encoding and returns the documented parsed form of the value: same structure, names, docs and values. The same for a type of any registry as long as the types it needs are usable (exist, do not contain themselves, compacts of something with a compact form, known bit stores and orders), also with the hint of a signed extension.", "quantifier": "all well-formed (acyclic, closed) registries; also all acyclic registries for values that have a parsed form, all types (struct, enum, vec, array, tuple, primitive, compact, bit sequence, special types), all values, all surrounding bytes", "why_tests_cant": "types are data here: the space of registries times values is unbounded and recursive; tests fix a handful of real metadata files", "anchors": ["src/decoding_sci.rs: decode_with_type, decode_fields, decode_elements_set, decode_variant, husk_type", "src/lib.rs: decode_as_type_at_position"]}
{"id": "C04", "title": "Whatever is decoded was really there", "statement": "Whenever decoding a position as a type succeeds, there is a value of that type whose SCALE encoding is exactly the bytes between the start and the end position and whose documented parsed form is exactly the returned data. Nothing is invented, dropped or re-ordered.", "quantifier": "all registries (also malformed and cyclic), all types, all byte buffers, all positions", "why_tests_cant": "requires a claim about every accepted byte string, including adversarial ones", "anchors": ["src/decoding_sci.rs: decode_with_type", "src/special_types.rs", "src/lib.rs: decode_as_type_at_position"]}
{"id": "C05", "title": "The position never moves backwards and never leaves the buffer", "statement": "If decoding starts at a position inside the buffer then, whether it succeeds or fails, the position it leaves is not before the start and not after the end of the buffer.", "quantifier": "all registries, types, buffers, start positions, successful and failing runs", "why_tests_cant": "the code itself relies on this in a comment ('ruled out elsewhere') without a check; a failing case needs a particular combination of type and truncation", "anchors": ["src/decoding_sci.rs: decode_with_type", "src/decoding_sci_ext.rs: decode_extensions_unmarked"]}
{"id": "C06", "title": "A successful decode depends only on the bytes it consumed", "statement": "If decoding succeeds over some span of bytes, then decoding the same type at any place of any other buffer holding the same span gives the same data and consumes the same number of bytes.", "quantifier": "all registries, types, buffers, and replacements of everything outside the consumed span", "why_tests_cant": "quantifies over all pairs of buffers; the parser peeks ahead (compact search, call and signature detection, era) and each peek is a possible leak", "anchors": ["src/decoding_sci.rs", "src/special_indicators.rs: SpecialtyTypeChecked::from_type", "src/special_types.rs: special_case_era"]}
{"id": "C07", "title": "Cut data is never accepted", "statement": "If decoding a buffer succeeds and consumes bytes up to some end position, then decoding the same buffer cut anywhere before that end position fails.", "quantifier": "all registries, types, buffers and cut points", "why_tests_cant": "every cut point of every encoding", "anchors": ["src/decoding_sci.rs", "src/error.rs: ParserError"]}
{"id": "C08", "title": "Encodings are uniquely decodable", "statement": "Two values of one type whose encodings are such that one is a prefix of the other have the same parsed form (no two different readings of the same bytes). In any registry whatever, also a malformed one, no encoding of a type is a proper beginning of another of the same type (inside of a compact or not), and data begin with the encoding of at most one value.", "quantifier": "all registries, types and pairs of values (parsed forms: well-formed registries)", "why_tests_cant": "a statement about all pairs of values", "anchors": ["src/decoding_sci.rs: decode_with_type"]}
{"id": "C09", "title": "Decoding terminates on any metadata, including cyclic metadata", "statement": "For every registry, including ones whose types refer to each other in cycles, every type, every buffer and every position, decoding returns after a recursion depth bounded by a function of the buffer length and the number of types.", "quantifier": "all registries (cyclic ones included), types, buffers, positions", "why_tests_cant": "non-termination cannot be observed by a test, and the argument rests on the interplay of position progress and the cycle tracker", "anchors": ["src/decoding_sci.rs: decode_with_type, husk_type", "src/propagated.rs: Checker::check_id, drop_cycle_check"]}
{"id": "C10", "title": "The cyclic-metadata error is never a false alarm", "statement": "If decoding reports cyclic metadata at some type id, then that type really contains itself through structs, tuples, arrays and compacts only, i.e. without an enum or a vector in between.", "quantifier": "all registries, types, buffers, positions", "why_tests_cant": "a false alarm needs a particular sharing pattern of types; real metadata exercises few of them", "anchors": ["src/propagated.rs: Checker", "src/decoding_sci.rs: husk_type"]}
{"id": "C11", "title": "No input makes the decoding API panic (64-bit)", "statement": "For every registry, metadata, buffer and position, decoding a type, a call, extensions, a marked or unmarked transaction, a storage entry or an unchecked extrinsic returns a value or an error; none of the `expect`s, indexings or unreachable branches on these paths is ever reached. (The key of a storage entry is held in memory, or in external memory whose failures depend on the address; other failures of external memory can make storage entry parsing panic, see C53.)", "quantifier": "all inputs of the public decoding functions on a 64-bit target", "why_tests_cant": "absence of a panic over all inputs is not testable", "anchors": ["src/lib.rs: MarkedData::data_no_extensions", "src/special_types.rs: StableLength", "src/storage_data.rs: check_hash, cut_hash"]}
{"id": "C12", "title": "Hints never change what is decoded", "statement": "Names of fields and extension identifiers only label values. Decoding with any hint succeeds exactly when decoding with any other hint does, consumes the same bytes, and returns the same data except for the labels (balance, tip, nonce, spec version, spec name, tx version, genesis hash, block hash).", "quantifier": "all registries, types, buffers and pairs of hints", "why_tests_cant": "pairs of runs over all inputs", "anchors": ["src/special_indicators.rs: Hint", "src/propagated.rs: SpecialtySet"]}
{"id": "C13", "title": "Documentation strings never influence decoding", "statement": "Two registries that differ only in documentation strings decode every buffer to the same result, apart from the docs copied into the output.", "quantifier": "all pairs of registries equal up to docs, all types, buffers, positions", "why_tests_cant": "pairs of runs over all inputs", "anchors": ["src/cards.rs: Info::from_ty, Documented"]}
{"id": "C14", "title": "Whole-blob decoding uses the whole blob", "statement": "Decoding a whole blob as a type succeeds exactly when decoding at position 0 succeeds and ends at the last byte; if bytes remain the error names the first unused position.", "quantifier": "all registries, types and blobs", "why_tests_cant": "needs every possible amount of trailing data for every type", "anchors": ["src/lib.rs: decode_all_as_type"]}
{"id": "C15", "title": "Compact types wrap only integers, per-things and transparent wrappers", "statement": "A compact around a type is decoded only if, through single-field structs and tuples, that type is an unsigned integer up to u128 or a per-thing (or is empty); a compact around anything else (bool, char, str, signed or 256-bit integers, hashes, keys, enums, vectors, arrays, multi-field structs, another compact) is always an error, never a mis-decode.", "quantifier": "all registries, all compact types, all buffers", "why_tests_cant": "quantifies over all types under the compact", "anchors": ["src/propagated.rs: SpecialtySet::reject_compact", "src/special_types.rs: impl_block_compact, impl_allow_compact"]}
{"id": "C16", "title": "The enum variant is chosen by its declared index", "statement": "Decoding an enum reads one byte and uses the first variant declared with that index, whatever its place in the list; a byte that no variant declares is rejected naming the position, and the byte is not consumed by the selection itself.", "quantifier": "all variant lists (any order, gaps, duplicates), all bytes", "why_tests_cant": "all 256 bytes times all variant lists", "anchors": ["src/decoding_sci.rs: pick_variant, decode_variant"]}
{"id": "C17", "title": "Text is accepted exactly when it is valid UTF-8", "statement": "A str is decoded exactly when the announced bytes are a concatenation of UTF-8 encodings of Unicode scalar values; the returned text is those bytes unchanged; otherwise a type failure is reported at the start of the str.", "quantifier": "all byte strings of all lengths", "why_tests_cant": "surrogates, overlong forms and truncated sequences at every place of every string", "anchors": ["src/decoding_sci.rs: decode_str", "src/cards.rs: ParsedData::card (Sequence::U8)"]}
{"id": "C18", "title": "Bit sequences keep every bit in order", "statement": "For every store type u8..u64, bit order and bit string of at most 2^29-1 bits, decoding the SCALE encoding of the bit vector gives exactly those bits and consumes exactly the length prefix and the whole store elements; longer ones are refused.", "quantifier": "all bit strings, stores and orders, surrounding bytes", "why_tests_cant": "all lengths modulo the store width and all contents", "anchors": ["src/decoding_sci.rs: decode_type_def_bit_sequence, BitVecPositions, into_bitvec_decode"]}
{"id": "C19", "title": "Era decoding and encoding are inverse", "statement": "Every era obtained by decoding re-encodes to the bytes it came from; every valid era (immortal, or mortal with a power-of-two period from 4 to 65536 and a quantised phase below it) encodes to one or two bytes that decode to it; inside a transaction the era consumes exactly those bytes.", "quantifier": "all byte pairs, all valid eras", "why_tests_cant": "65536 encodings and the bit tricks in both directions", "anchors": ["src/additional_types.rs: Era", "src/special_types.rs: special_case_era"]}
{"id": "C20", "title": "Collected sequences are faithful", "statement": "When elements of a vector or array are shown as one collected sequence (integers or byte strings), it holds exactly the element values in order and in number; collection never drops, merges or re-orders elements, and labelled integers are never collected.", "quantifier": "all element lists", "why_tests_cant": "all lengths and mixtures of elements", "anchors": ["src/special_types.rs: wrap_sequence, Collectable"]}
{"id": "C21", "title": "Marking a signable transaction splits it at the announced length", "statement": "Marking succeeds exactly when the data starts with a compact u32 length and at least that many bytes follow; the call then starts right after the compact and the extensions start exactly that many bytes later, inside the data. The data without the extensions can always be taken, from any well-behaved source: it has the same positions, answers exactly for the bytes in front of the extensions as the source does, and marking it again gives the same marks.", "quantifier": "all byte strings", "why_tests_cant": "all lengths and contents", "anchors": ["src/lib.rs: MarkedData::mark, call_start, extensions_start, data_no_extensions"]}
{"id": "C22", "title": "Call and extensions are isolated from each other", "statement": "In a marked transaction the call result is a function of the bytes up to the end of the call only: replacing the extensions (by any bytes accepted as extensions) cannot change it. The extensions result, up to the absolute positions in errors, is a function of the extensions bytes only: replacing the call by another call of the same length cannot change it.", "quantifier": "all transactions, all replacements", "why_tests_cant": "pairs of runs over all inputs; a call must never be able to read the extensions", "anchors": ["src/lib.rs: parse_transaction, data_no_extensions", "src/decoding_sci.rs: decode_as_call"]}
{"id": "C23", "title": "Accepted extensions match the chain", "statement": "If a signable transaction (marked or not) is parsed, then among the decoded extensions there is exactly one spec version and it equals the one in the metadata, exactly one genesis hash and it equals the expected one if one was given, at most one era and at most one block hash, and if the era is immortal and a block hash is present the block hash equals the genesis hash; all extension bytes were used.", "quantifier": "all transactions, metadata, expected genesis hashes", "why_tests_cant": "a safety claim about every accepted input; this is what a signer relies on", "anchors": ["src/decoding_sci_ext.rs: decode_extensions_unmarked, check_extensions, CollectedExt"]}
{"id": "C24", "title": "Extensions are rejected only for a documented reason", "statement": "If all extensions decode, use all the data, contain exactly one matching spec version, exactly one (matching) genesis hash, at most one era and block hash, and the immortal-era rule holds, then extension parsing succeeds; otherwise the reported error is the one documented for the first violated rule.", "quantifier": "all transactions, metadata, expected genesis hashes", "why_tests_cant": "completeness of the check over all inputs", "anchors": ["src/decoding_sci_ext.rs: check_extensions, CollectedExt::update"]}
{"id": "C25", "title": "Marked and unmarked parsing agree", "statement": "For all call bytes and extension bytes, parsing the length-prefixed transaction yields a decoded call and extensions exactly when parsing the un-prefixed transaction does with the call consuming exactly the call bytes, and then both give the same call and the same extensions.", "quantifier": "all call bytes, extension bytes, metadata, genesis hashes", "why_tests_cant": "pairs of runs at different offsets over all inputs", "anchors": ["src/lib.rs: parse_transaction, parse_transaction_unmarked"]}
{"id": "C26", "title": "A parsed call uses the whole call", "statement": "In a marked transaction a call is returned only if decoding it used exactly the announced call length and it follows the pallet-call pattern; otherwise an error naming the unused range, or that it is not a call, is returned.", "quantifier": "all transactions and metadata", "why_tests_cant": "all amounts of trailing call data for all call types", "anchors": ["src/decoding_sci.rs: decode_as_call, decode_as_call_unmarked"]}
{"id": "C27", "title": "Storage entries are used completely", "statement": "Parsing a storage entry succeeds only if the key has the 32-byte prefix, a plain entry has nothing after it, a map entry has key parts covering exactly the rest of the key, and the value is decoded completely as the value type.", "quantifier": "all keys, values, entry descriptions and registries", "why_tests_cant": "all lengths of keys and values", "anchors": ["src/storage_data.rs: decode_as_storage_entry, process_key_mapped"]}
{"id": "C28", "title": "Hashed storage key parts are checked", "statement": "Every key part decoded behind a concatenating hasher is returned only if the hash in the key equals the hash of exactly the bytes that were decoded; opaque hash parts are returned byte for byte with their type id; the number and order of parts is that of the hashers.", "quantifier": "all keys, hasher lists, key types, and any hash functions", "why_tests_cant": "the claim is for every hash function value and every key", "anchors": ["src/storage_data.rs: check_hash, cut_hash, process_key_mapped"]}
{"id": "C29", "title": "Storage keys built by the chain are decoded", "statement": "For every list of hashers and every list of key values of the declared key types, the key made of a 32-byte prefix and, per hasher, hash and encoding as Substrate builds it, is parsed back into those values (or hashes).", "quantifier": "all hasher lists, key types, key values", "why_tests_cant": "unbounded number of parts and values", "anchors": ["src/storage_data.rs: process_key_mapped"]}
{"id": "C30", "title": "Unchecked extrinsics are framed and versioned strictly", "statement": "An unchecked extrinsic is accepted only if the compact length prefix equals the number of remaining bytes, the low seven bits of the version byte equal the metadata extrinsic version, and the result is signed exactly when the top bit is set; too short and too long inputs are rejected naming the position.", "quantifier": "all byte strings and metadata", "why_tests_cant": "all lengths and all 256 version bytes", "anchors": ["src/unchecked_extrinsic.rs: decode_as_unchecked_extrinsic"]}
{"id": "C31", "title": "Unchecked extrinsics round-trip", "statement": "Encoding address, signature, extra and call (or only a call) by the SCALE rules behind the right version byte and length prefix, and decoding that as an unchecked extrinsic, gives back exactly these parts.", "quantifier": "all values of the four types, all acyclic registries", "why_tests_cant": "all values", "anchors": ["src/unchecked_extrinsic.rs: decode_as_unchecked_extrinsic"]}
{"id": "C32", "title": "Bytes left over inside an unchecked extrinsic are ignored", "statement": "The announced length is the only completeness check of unchecked extrinsics: if an extrinsic is accepted, then with any bytes appended behind its call and the length prefix adjusted it is accepted too, with the same result. (The documentation requires that blobs are decoded completely; this property says precisely how unchecked extrinsics deviate from it, with a witness.)", "quantifier": "all metadata, all accepted extrinsics, all appended bytes", "why_tests_cant": "needs the right trailing bytes inside a consistent length prefix", "anchors": ["src/unchecked_extrinsic.rs: decode_as_unchecked_extrinsic", "src/lib.rs: Assumptions"]}
{"id": "C33", "title": "V14 extrinsic types come from the named type parameters", "statement": "For V14 metadata the address, call, signature and extra types are those of the type parameters with these names of the extrinsic type, provided it is (a wrapper of) Vec<u8>; if one is missing or the type is something else, the corresponding error is returned; for V15 they are taken from the metadata verbatim.", "quantifier": "all metadata", "why_tests_cant": "all orders, repetitions and omissions of parameters", "anchors": ["src/traits.rs: extrinsic_type_params, process_extrinsic_type_params"]}
{"id": "C34", "title": "Spec name and version come from the System Version constant", "statement": "The reported spec name and spec version are the decimal print and the text of the only fields called spec_version and spec_name (so labelled) of the decoded Version constant of the first System pallet; absence, repetition, undecodable or non-struct constants give the documented errors.", "quantifier": "all metadata", "why_tests_cant": "all constants and layouts", "anchors": ["src/traits.rs: spec_name_version, version_constant_data_and_ty, spec_name_version_from_runtime_version_data"]}
{"id": "C35", "title": "Displayed balances are exact", "statement": "For every balance value and every decimals, the displayed number times the power of ten of the displayed unit prefix equals the value times ten to minus decimals, exactly.", "quantifier": "all u128 values, all decimals 0..255, all unit names", "why_tests_cant": "2^136 combinations through a hand-written case split", "anchors": ["src/printing_balance.rs: convert_balance_string, AsBalance"]}
{"id": "C36", "title": "Displayed balances are complete, readable and never panic", "statement": "For every balance value and decimals the formatting does not panic, all digits of the value appear contiguously in the displayed number, and between atto and tera the integer part has one to three digits; outside it the extreme prefix is used. The display is determined by this: exactly the known decimals stand after the point, none lost and none added.", "quantifier": "all u128 values, all decimals 0..255", "why_tests_cant": "2^136 combinations", "anchors": ["src/printing_balance.rs: convert_balance_string, assist"]}
{"id": "C37", "title": "Cards form a well-formed outline", "statement": "The cards of any parsed data form one block: the first card is at the requested indent, all others are deeper, no card is deeper by more than one than its predecessor; asking for a larger indent shifts all cards by the difference and changes nothing else.", "quantifier": "all parsed data of any nesting, all indents", "why_tests_cant": "unbounded nesting", "anchors": ["src/cards.rs: ParsedData::card, PalletSpecificData::card, card_field_set"]}
{"id": "C38", "title": "Chain units appear only where allowed", "statement": "A value labelled as balance is carded with chain units and decimals only inside extensions or in a call or event of the Balances or Staking pallets, judged by the innermost enclosing call or event; elsewhere the raw number is shown; a tip is always shown with units, an asset tip never.", "quantifier": "all parsed data, all nestings of calls", "why_tests_cant": "nested calls of different pallets in any depth", "anchors": ["src/cards.rs: PALLETS_BALANCE_VALID, is_balance_display, specialty_card"]}
{"id": "C39", "title": "Cards lose no value", "statement": "The cards other than announcements and field headers show, in order and one for one, everything there is in the parsed data: each leaf value, each element of collected integers, each byte string, and the names of variants, pallets, calls and events; equal cards mean equal values (where the address format is injective). A struct card announces exactly its fields, each with a header; a tuple or sequence card announces the number of its components, and as many are carded, except that components without any content (empty structs and tuples, possibly wrapped in single-field structs) have no card.", "quantifier": "all parsed data of any nesting", "why_tests_cant": "unbounded nesting and lengths", "anchors": ["src/cards.rs: ParsedData::card"]}
{"id": "C40", "title": "Type information on cards is never empty", "statement": "Every type-information entry attached to a card of decoded data has a docs or a path component, and docs that are present are not empty.", "quantifier": "all registries, types, buffers", "why_tests_cant": "a claim about all decoder outputs, documented on the type but not enforced by it", "anchors": ["src/cards.rs: InfoFlat, Info::flatten", "src/propagated.rs: Propagated::add_info"]}
{"id": "C41", "title": "Reading from external memory gives the in-memory result or an error", "statement": "If data and metadata live in external memory in which every request either always yields the stored content or always fails, then decoding a value, a whole blob or a transaction either returns exactly what decoding the same content in memory returns, or reports an external memory error (while the call length of a transaction is read: that the data is cut; inside the call: as the call's error, with the extensions intact). This holds for registries in which a type recognised as bare signature inside MultiSignature is an array, possibly inside single-field structs, not itself recognised by its path; for other registries a fault can go unnoticed, and a witness is exhibited.", "quantifier": "all contents, all sets of unreadable addresses, all types", "why_tests_cant": "all fault sets times all inputs", "anchors": ["src/traits.rs: ResolveType", "src/decoding_sci.rs: decode_with_type", "src/special_indicators.rs: SpecialtyTypeChecked::from_type"]}
{"id": "C42", "title": "A transient external memory fault never changes the values read", "statement": "If accesses to external memory may fail at any moment (the same access may fail once and succeed later), then decoding a value reports an external memory error, or ends as decoding without faults does: with the same number of bytes used and the same values, names, docs and type information, except that an enum may be shown recognised as a call, event or bare signature in one and not in the other. If the type and the types inside it are not named like multi-signatures, calls or events, the result is exactly the same. Reported external errors are ones the memory raised. (Registries in which bare signatures are plain byte arrays; where the data shows a value of an enum without variants, one run may succeed and the other fail. Witnesses are exhibited that faults can go unnoticed, attribute a call to another pallet, and accept data otherwise rejected.)", "quantifier": "all contents, all fault schedules", "why_tests_cant": "the fault must hit one particular access", "anchors": ["src/special_indicators.rs: SpecialtyTypeChecked::from_type, SignatureIndicator::from_field"]}
{"id": "C43", "title": "Bit vectors over u64 on 32-bit targets", "statement": "On 32-bit targets, decoding the SCALE encoding of a bit string (up to 2^32-1 bits) in a bit sequence with u64 store, in either order and anywhere in the data, gives exactly the bits delivered on 64-bit targets and consumes exactly the encoding, except that it panics when the last group of 64 bits has more than 32 bits and begins with 32 zeros (such strings decode on 64-bit targets), delivers a shifted half for Msb0 vectors whose padding is not zero, and does not apply the limit of 2^29-1 bits. Where no bit vector stands in the data there is an error, never a panic, and the position stays.", "quantifier": "all bit strings, all store elements including padding, both orders, all surrounding data", "why_tests_cant": "needs a last store element with a zero half", "anchors": ["src/decoding_sci.rs: patch_bitvec_u64, reform_vec_lsb0, reform_vec_msb0"]}
{"id": "C44", "title": "Output size is bounded by input size, except for vectors of empty elements", "statement": "In a registry where no type contains itself without an enum or vector in between and no vector has elements that can be encoded in no bytes, the number of items (values, containers, bytes, characters, bits) in successfully parsed data is at most a constant, depending on the registry only, times one plus the number of bytes consumed. With a vector of zero-sized elements there is no bound: at most five bytes give any number of elements up to 2^32-1.", "quantifier": "all registries, types, buffers and positions", "why_tests_cant": "needs a zero-sized element type with a huge announced length", "anchors": ["src/decoding_sci.rs: decode_elements_set"]}
{"id": "C45", "title": "Printed cards carry the indent and keep the payload", "statement": "Printing a card gives two spaces per indent level followed by a text that does not depend on the indent: the label of the card's kind and its payload (numbers in decimal, bytes in hex); printing with docs only appends to the plain print (element info, then one line per piece of type info at the same indent).", "quantifier": "all cards, all indents", "why_tests_cant": "all payloads", "anchors": ["src/cards.rs: ExtendedCard::show, show_with_docs, readable"]}
{"id": "C46", "title": "Transaction carding is piecewise", "statement": "Carding a parsed transaction gives the cards of its call and the concatenation of the cards of its extensions in order, each computed as if alone, at indent 0; call errors are passed through.", "quantifier": "all parsed transactions, specs and names", "why_tests_cant": "all numbers of extensions", "anchors": ["src/lib.rs: TransactionParsed::card, TransactionUnmarkedParsed::card"]}
{"id": "C47", "title": "The displayed lines determine the bytes", "statement": "If two byte strings are completely decoded by the same type and the lines printed for their cards are the same, the byte strings are the same; the lines of one value are never a proper beginning of those of another. Required: variants of one enum have different names, the address format and the bit-vector format tell inputs apart, and the value has no compact per-thing of 100% or more and no unused bits in a bit vector.", "quantifier": "all registries with distinct variant names, all types, all pairs of byte strings, all indents and specs", "why_tests_cant": "ranges over all pairs of inputs; a wallet shows the lines and signs the bytes", "anchors": ["src/cards.rs: ParsedData::card, ExtendedCard::show", "src/lib.rs: decode_all_as_type, decode_as_type_at_position"]}
{"id": "C48", "title": "What is displayed for a transaction determines what is signed", "statement": "If two signable transactions are accepted for the same metadata and the lines printed for call and extensions are the same, the transactions are the same bytes (under the conditions of C47), for both parse_transaction and parse_transaction_unmarked.", "quantifier": "all metadata with distinct variant names, all pairs of transactions", "why_tests_cant": "ranges over all pairs of transactions", "anchors": ["src/lib.rs: parse_transaction, parse_transaction_unmarked, TransactionParsed::card", "src/cards.rs: ExtendedCard::show"]}
{"id": "C49", "title": "The exclusions of C47 are necessary, and where joined text is enough", "statement": "There are pairs of different byte strings with the same lines for each exclusion: compact per-things above 100%, unused bits of a bit vector, variants with one name. The newline-joined text of ExtendedData::show does not determine the bytes in general (a text with a newline imitates a further line); it does if no printed line contains a newline.", "quantifier": "existence of pairs; for the last part all pairs of inputs whose lines contain no newline", "why_tests_cant": "the positive part ranges over all pairs of inputs", "anchors": ["src/cards.rs: ExtendedData::show, ExtendedCard::show"]}
{"id": "C50", "title": "Only types reachable from the requested ones matter", "statement": "Two registries that give the same answers for a set of types closed under the types named in their definitions (types recognised by path are not looked into, apart from array elements) give the same complete outcome, errors and positions included, for every value of those types, every transaction, unchecked extrinsic and storage entry whose types lie in the set. So metadata may be shortened to the reachable types. Emptying a reachable type does change results.", "quantifier": "all well-behaved buffers, all pairs of well-behaved registries (also stateful ones), all closed sets, all inputs, valid or not", "why_tests_cant": "ranges over pairs of registries and all inputs", "anchors": ["src/traits.rs: ResolveType, AsMetadata", "src/decoding_sci.rs: decode_with_type", "src/lib.rs: parse_transaction, parse_transaction_unmarked", "src/storage_data.rs: decode_as_storage_entry", "src/unchecked_extrinsic.rs: decode_as_unchecked_extrinsic"]}
{"id": "C51", "title": "Metadata with trimmed enums never misreads", "statement": "If enums of the metadata keep only some of their variants (every remaining index means the same as before, and no enum loses all variants), then every value, transaction, unchecked extrinsic and storage entry is answered exactly as with the complete metadata, or refused with UnexpectedEnumVariant (for marked transactions: the call is refused, the extensions are the same). Whatever can be encoded with the remaining variants is decoded as before. Removing all variants of an enum does change the meaning.", "quantifier": "all in-memory registries and metadata, all ways of trimming, all inputs, valid or not", "why_tests_cant": "ranges over pairs of registries and all inputs", "anchors": ["src/decoding_sci.rs: decode_variant, pick_variant, decode_with_type", "src/special_indicators.rs: SpecialtyTypeChecked::from_type", "src/lib.rs: parse_transaction, parse_transaction_unmarked, decode_all_as_type", "src/storage_data.rs: decode_as_storage_entry", "src/unchecked_extrinsic.rs: decode_as_unchecked_extrinsic"]}
{"id": "C52", "title": "The message of an error tells which error it is", "statement": "If two failing runs (parse_transaction, its call result, parse_transaction_unmarked; likewise parsing, storage, unchecked extrinsic and metadata errors) display the same message, they failed with the same error, including every position, type identifier, hash, version and type name carried by the error - provided the messages of BufferError, of the external memory and of custom metadata errors are themselves distinct and do not start like the messages of this crate. Every message names the trouble in words and gives each value next to the words saying what it is (e.g. the hash found in the extensions and the expected hash are not exchanged).", "quantifier": "all chains, expected hashes and byte strings; all errors of the error types", "why_tests_cant": "ranges over all pairs of errors with arbitrary numbers and strings in them", "anchors": ["src/error.rs: error_text of SignableError, StorageError, ParserError, RegistryError, RegistryInternalError, ExtensionsError, MetaStructureErrorV14, MetaVersionErrorPallets, UncheckedExtrinsicError"]}
{"id": "C53", "title": "Storage entries and unchecked extrinsics from external memory", "statement": "A successful decoding has consumed only bytes that the memory can deliver. If some addresses of the memory holding a storage key are unreadable, parsing the entry never panics, and gives exactly what parsing the same content in memory gives or an external memory error, also if the memory of value and metadata has persistent faults. The same holds for unchecked extrinsics (a fault while the length is read is reported as a missing compact). For memory that refuses requests rather than addresses a storage entry may also end in a panic, but never in another result; witnesses show that one failed access, and a persistent refusal, do make it panic, because the key is read a second time for its hash and that read is not expected to fail.", "quantifier": "all contents, all sets of unreadable addresses or refused requests, all metadata, all hash functions", "why_tests_cant": "all fault sets times all inputs; the panic needs the fault to hit exactly the second read", "anchors": ["src/storage_data.rs: check_hash, process_key_mapped, decode_as_storage_entry", "src/unchecked_extrinsic.rs: decode_as_unchecked_extrinsic", "src/traits.rs: ExternalMemory"]}
{"id": "C54", "title": "Bytes that are not consumed are not needed; storage key prefixes are not looked at", "statement": "If decoding a value from a position succeeds in memory, it succeeds with the same result and end from any external memory holding the same data in which the bytes between position and end can be read, whatever other addresses are unreadable; and (for registries as in C41) it succeeds only then. The result of parsing a storage entry does not depend on the first 32 bytes of the key, which name pallet and entry: they are neither compared nor read.", "quantifier": "all contents, positions, types, sets of unreadable addresses; all prefixes, keys, entries and hash functions", "why_tests_cant": "all placements of unreadable addresses times all inputs", "anchors": ["src/compacts.rs: find_compact", "src/decoding_sci.rs: decode_with_type", "src/special_indicators.rs: SpecialtyTypeChecked::from_type", "src/storage_data.rs: decode_as_storage_entry"]}
{"id": "C55", "title": "Names only label", "statement": "Two type registries that differ only in field names, type names, variant names, documentation, type parameters and paths whose last segment is not one of the recognised identifiers (and whose field type names agree on the three recognised signature type names) decode every input alike: same success or same error, same final position, same reads of external memory, and the same data up to the names, labels and type information attached to it (for any chosen way of comparing names, the names reported agree whenever the names in the registries do). The same holds for whole storage entries (keys, values), calls of transactions and unchecked extrinsics.", "quantifier": "all pairs of registries, type ids, buffers (with any external memory), positions, and all ways of comparing names", "why_tests_cant": "all registries, renamings and inputs", "anchors": ["src/special_indicators.rs: Hint::from_field, SpecialtyTypeHinted::from_type, SignatureIndicator::from_field", "src/decoding_sci.rs: decode_with_type, decode_elements_set, find_bit_order_ty", "src/special_types.rs: wrap_sequence"]}
{"id": "C56", "title": "What is parsed determines the bytes", "statement": "Two inputs with the same parsed result are the same bytes: the used bytes of a value, a whole blob, a marked or unmarked signable transaction, the key (after the 32 bytes naming the entry) and value of a storage entry, and an unchecked extrinsic up to bytes after the call and the announced length. Required: variants of one enum have different names, and the result has no compact per-thing of 100% or more and no unused bits in a bit vector.", "quantifier": "all registries, inputs, metadata, storage entries and hash functions", "why_tests_cant": "pairs of arbitrary inputs for arbitrary types", "anchors": ["src/decoding_sci.rs: decode_with_type", "src/storage_data.rs: decode_as_storage_entry", "src/lib.rs: parse_transaction, parse_transaction_unmarked", "src/unchecked_extrinsic.rs: decode_as_unchecked_extrinsic"]}
{"id": "C57", "title": "Documentation and type information stand on the cards they belong to", "statement": "On every card of a value, call or transaction the type information is exactly this: on the first card of a value the type information of the value (types, in order from outside; for a single-field struct or variant without a field name joined with the field's documentation and the field's own type information); on a field header and a variant, call or event name its documentation if there is any; on a pallet name the documentation and path of the pallet's type; on a sequence card also the type information of the elements. Documentation is shown unchanged, path segments in order separated by ' >> ', and only what is not empty.", "quantifier": "all parsed data of any nesting, all indents and display options, all transactions", "why_tests_cant": "unbounded nesting of data and type information", "anchors": ["src/cards.rs: Info::flatten, ParsedData::card, PalletSpecificData::card, card_field_set, card_unnamed_single_field, info_with_docs_only", "src/lib.rs: TransactionParsed::card, TransactionUnmarkedParsed::card"]}
{"id": "C58", "title": "Storage keys without their prefix", "statement": "process_key_mapped started at any position of a key reads exactly the bytes from there to the end: it accepts exactly the keys described for maps (C27-C29), and otherwise gives the documented error; a position beyond the end is an error; no position or key makes it panic. A key trimmed of any number of leading bytes gives the same answer as the whole key started after these bytes, except that positions in errors are counted from the new start. decode_as_storage_entry reads keys of maps in this way after 32 bytes. The same shift holds for the outcome, also a failure, of decoding a single value.", "quantifier": "all registries, hashers, key types, keys, prefixes and starting positions, all hash functions", "why_tests_cant": "arbitrary starting positions and arbitrary bytes in front", "anchors": ["src/storage_data.rs: process_key_mapped, decode_as_storage_entry", "src/lib.rs: decode_as_type_at_position"]}
{"id": "C59", "title": "The public building blocks answer exactly", "statement": "husk_type passes through exactly the single-field structs and compacts around a type, collects their type information from outside to inside, keeps the label and the place of the compact, and stops at the first type that is neither; it fails exactly for a repeated type, an unknown type or a compact inside a compact, and never moves the position. SignatureIndicator::from_field answers for exactly the fields named as signatures that hold byte arrays of the right length. SpecialtyTypeChecked::from_type gives for every type and place exactly what the type is there, and uses the index byte exactly when a signature, call or event has been recognised by it. pick_variant gives the first variant whose index is the byte, and find_bit_order_ty the order named by the type.", "quantifier": "all registries, checkers, types, fields, data and positions", "why_tests_cant": "arbitrary chains of nested types and arbitrary registries", "anchors": ["src/decoding_sci.rs: husk_type, pick_variant, find_bit_order_ty", "src/special_indicators.rs: SignatureIndicator::from_field, SpecialtyTypeChecked::from_type"]}
{"id": "C60", "title": "Errors are about the place they name", "statement": "If decoding a value in memory fails, what the error says of the data is true: at the position of an unexpected enum variant or undecodable value (not before the start) there is a byte; data reported too short have fewer bytes than asked for; where a compact is reported missing the data do not start with any compact number of the type asked for; no error about external memory, unused data or positions out of range occurs. The error is decided by the bytes up to the place: any other data with the same bytes up to and including the unexpected variant, the same bytes consumed (errors of the metadata), or the same 17 bytes where a compact is missing, fail with the same error; appended bytes never cure an undecodable value, and data too short only from the number of bytes asked for. So data cut before their end are always reported as too short, asking for no more bytes than the whole has, or as lacking a compact in their last 16 bytes.", "quantifier": "all registries, types, data, positions and continuations of data", "why_tests_cant": "arbitrary continuations of arbitrary data", "anchors": ["src/lib.rs: decode_as_type_at_position", "src/decoding_sci.rs: decode_with_type, pick_variant, decode_str", "src/special_types.rs: cut_and_decode", "src/compacts.rs: find_compact", "src/error.rs: ParserError"]}
{"id": "C61", "title": "Errors accuse the right type and data", "statement": "If decoding a value in memory fails, the error names something that is really wrong with a type needed for the value asked for: UnexpectedEnumVariant at a position means that some needed type is an enum without a variant of the index that stands there; TypeFailure at a position with a name means that some needed type is of this kind (bool, char, str, Era, PerU16..Perquintill, BitVec<store, order> under exactly this name) and the data there cannot be such a value (a byte other than 0 and 1, a number that is no Unicode scalar value, bytes that are not UTF-8, no valid era, parts above the whole, more than 2^29-1 bits); NoCompact means that some needed type starts with a compact of some width and no such compact stands there; DataTooShort means that some needed type asks for exactly this number of bytes (its fixed size, the index, the length written before the string or bit sequence) and there are fewer; TypeNotResolved, CyclicMetadata, UnexpectedCompactInsides, NotBitOrderType, NotBitStoreType name a needed type that is missing, contains itself, is a compact of something without compact form, or is a bit sequence without a known order or store. Decoding everything fails only this way, or with the position where the value ended before the data. If the needed types are free of such defects, only the data are accused.", "quantifier": "all registries, types, data and positions", "why_tests_cant": "ranges over all failing inputs and all metadata", "anchors": ["src/lib.rs: decode_as_type_at_position, decode_all_as_type", "src/decoding_sci.rs: decode_with_type, pick_variant, decode_str, husk_type, find_bit_order_ty", "src/special_types.rs: cut_and_decode, special_case_era", "src/compacts.rs: find_compact, get_compact", "src/propagated.rs: Checker::check_id, SpecialtySet::reject_compact", "src/error.rs: ParserError, RegistryInternalError"]}
{"id": "C62", "title": "The first fault in layout order decides the error", "statement": "Data that do not hold a value of the type asked for are rejected for the first thing wrong in the order of the layout: everything in front of it (earlier fields, members, elements, the index, the length) stands there as valid encodings, and at the place reached something is wrong that the error tells exactly: too few bytes for the number needed there (fixed size, index, length as written, signature), no compact number of the width needed, an index without variant, or bytes that are no bool, char, text, era, parts or bit sequence. There is at most one such first fault for given data, there is none where a value stands, and an error of the decoder that does not accuse the registry is this fault, with its position, name and number of bytes. If the needed types are usable, decoding fails with an error if and only if this error is the first fault, and always either a value stands there or there is exactly one fault. The decoder is thus its specification: with usable types, whatever else is in the registry, it returns a value with the position after it exactly if one stands there, as it is to be shown, and an error exactly if it is the first fault. Decoding everything fails exactly with this fault, or, if a value stands at the beginning and bytes follow, with the position where the value ended.", "quantifier": "all registries, types, data and positions", "why_tests_cant": "ranges over all failing inputs and all metadata; says which of many possible errors is given", "anchors": ["src/lib.rs: decode_as_type_at_position, decode_all_as_type", "src/decoding_sci.rs: decode_with_type, decode_elements_set, decode_fields, decode_variant, pick_variant, decode_str", "src/special_types.rs: cut_and_decode, special_case_era", "src/compacts.rs: find_compact, get_compact"]}
{"id": "C63", "title": "Every answer of the parsers follows from encodings alone", "statement": "If the types of the call and of the extensions can be used (all types they need are there, none contains itself, compacts and bit sequences are of what they can be of), the answer for a signable transaction, with the length of its call in front or without, is one that can be told without the decoder: the length, the values that stand one after another from the announced places, or the first fault, bytes that remain, and the judgement of the extensions, in this order; and there is only one such answer. The same holds for unchecked extrinsics (parameters, length, version, parts, call), for storage entries and storage keys from any position (prefix, hasher, hash, key, value), and for the runtime version in V14 and V15 metadata. So results and errors of these functions, positions and numbers in the errors included, are functions of what stands in the data. All registries in the tests of the repository consist of usable types only.", "quantifier": "all metadata with usable types, all data, expected genesis hashes, storage entries, keys, positions and hash functions", "why_tests_cant": "equates the functions with a declarative specification for every input, accepted or rejected", "anchors": ["src/lib.rs: parse_transaction, parse_transaction_unmarked, MarkedData::mark", "src/decoding_sci.rs: decode_as_call, decode_as_call_unmarked", "src/decoding_sci_ext.rs: decode_extensions, decode_extensions_unmarked", "src/unchecked_extrinsic.rs: decode_as_unchecked_extrinsic", "src/storage_data.rs: decode_as_storage_entry, process_key_mapped", "src/traits.rs: AsMetadata::spec_name_version"]}
{"id": "C64", "title": "Machine words", "statement": "Decoding asks a memory only for pieces that start inside the data and are shorter than 2^32 bytes or end inside the data, whatever registry and data; memories that answer such requests equally give the same results, errors, positions and states. So on a machine with words of W bits all parsers (values, whole blobs, transactions with or without length, storage entries, unchecked extrinsics) answer as with unbounded numbers if the data are at most 2^W - 2^32 bytes long, with overflow checks or without: on 64-bit machines no number overflows and nothing differs. On 32-bit machines without overflow checks (the default of release builds) nothing differs but for unchecked extrinsics; with overflow checks the marking of a transaction panics exactly for data that start with a compact number so large that the end of the announced call has no number. Unchecked extrinsics that announce such a length panic with overflow checks, and without are told to have unused data at a wrapped position instead of being too short. Five bytes are enough for both.", "quantifier": "all registries, metadata, data, positions, storage keys and values, word sizes, with and without overflow checks", "why_tests_cant": "overflow happens for particular lengths on particular targets; tests run on one target with short data", "anchors": ["src/lib.rs: MarkedData::mark", "src/unchecked_extrinsic.rs: decode_as_unchecked_extrinsic", "src/decoding_sci.rs: decode_str, into_bitvec_decode, decode_as_call", "src/compacts.rs: find_compact", "src/storage_data.rs: decode_as_storage_entry"]}
{"id": "C65", "title": "Number of reads", "statement": "Whatever memory holds the data and the types, a successful decoding makes at most two reads of the data (calls of `read_slice`) for each byte it uses, and a failed one at most 19 more than twice the bytes between its start and end positions. So a whole parse of values, unchecked extrinsics and transactions makes at most 2*len + 19 reads of data of len bytes, and of a storage entry at most 2*(key - 32) + 2*value + 19; 19 less on success (for marked transactions: when the call is parsed as well). This needs that no enum without variants is named Call, RuntimeCall, Event, RuntimeEvent or MultiSignature: such values take no bytes but a read each, so that a vector of them in one byte takes 64 reads.", "quantifier": "all memories with any state, registries, metadata, data, positions, type ids, storage entries, hash functions", "why_tests_cant": "a bound on the work for every input; tests count reads of samples at most", "anchors": ["src/traits.rs: AddressableBuffer", "src/compacts.rs: find_compact", "src/decoding_sci.rs: decode_with_type, decode_str, pick_variant", "src/special_types.rs: special_case_era", "src/special_indicators.rs: SpecialtyTypeChecked::from_type", "src/storage_data.rs: check_hash", "src/lib.rs: parse_transaction"]}
{"id": "C66", "title": "Transient memory faults in transactions, unchecked extrinsics and storage entries", "statement": "If any access to external memory (to the data or to the types) may fail now and then, then whatever accesses fail, `parse_transaction` gives CutSignable, or the error of the memory, or a refusal as without faults, or extensions with the same reading as without faults (exactly the same if no call, event or multi-signature type occurs in them); and the call is then the same call (same pallet, variant, documentation, field names and readings) as without faults, or an error: the memory's, NotACall or the one without faults. A call is never reported where there is none, nor another call. The same holds for transactions without length mark, for unchecked extrinsics (where faults can also give FormatNoCompact or UnexpectedCallTy) and for `decode_all_as_type`. A storage entry is the same or the error of the memory or the error without faults; parsing may panic, but only if an access to the key failed.", "quantifier": "all memories whose accesses succeed truthfully or fail with an external error in any pattern, all registries with plain multi-signatures and no empty pallets, metadata, data, keys, values, hash functions", "why_tests_cant": "quantifies over every pattern of failing accesses", "anchors": ["src/lib.rs: parse_transaction, parse_transaction_unmarked, MarkedData::mark", "src/decoding_sci.rs: decode_as_call, decode_as_call_unmarked", "src/decoding_sci_ext.rs: decode_extensions, decode_extensions_unmarked, check_extensions", "src/unchecked_extrinsic.rs: decode_as_unchecked_extrinsic", "src/storage_data.rs: decode_as_storage_entry, check_hash", "src/special_indicators.rs: SpecialtyTypeChecked::from_type", "src/traits.rs: ExternalMemory"]}
{"id": "C67", "title": "Addresses and bit strings as displayed", "statement": "The displayed address of an account or public key is the base 58 text (same big-endian number, as many leading ones as zero bytes) of the address type of the chain in one or two bytes, the key, and two bytes of the Blake2b hash of both. It is the only such text for its key and prefix, and tells them: no text is the address of two keys, of whatever kinds, or of two prefixes below 2^14 (of larger prefixes 14 bits count). It contains only digits and letters other than 0, O, I and l. The text of a bit vector tells its bits. So the properties of the display (different values have different cards, displayed lines determine the bytes decoded and whole transactions) hold for these formats.", "quantifier": "all keys, prefixes, hash functions with at least two bytes of output, byte strings, bit vectors, registries, data, transactions", "why_tests_cant": "tests compare a few addresses; that no two keys share one is about all pairs", "anchors": ["src/cards.rs: IdData, ExtendedCard", "src/lib.rs: ShortSpecs"]}
{"id": "C68", "title": "Depth of nesting and indents", "statement": "Parsed data has at most 1 + (bytes consumed + 1) * (number of types + 3) levels of nesting, in external memory with the length of the data in place of the bytes consumed; the same for calls and extensions of transactions, for unchecked extrinsics and for storage entries. If the chains of types mentioned one in another, starting at the type decoded, have at most n steps, there are at most n + 1 levels, however long the data. There is no other limit: of the enum Nest { End, More(Nest) }, n + 1 bytes give n + 1 levels. The cards of data displayed at some indent have at least that indent and exceed it by less than 3 per level, so that 32-bit indents do not overflow unless the data is longer than 2^30 / (types + 3).", "quantifier": "all registries, data, types, positions, memories, transactions, storage entries, indents, display parameters", "why_tests_cant": "a bound on the nesting of the results of all inputs, and results of every depth", "anchors": ["src/decoding_sci.rs: decode_with_type", "src/lib.rs: decode_as_type_at_position, parse_transaction, parse_transaction_unmarked", "src/unchecked_extrinsic.rs: decode_as_unchecked_extrinsic", "src/storage_data.rs: decode_as_storage_entry", "src/cards.rs: ParsedData::card, Call::card"]}
{"id": "C69", "title": "What is signed is what is included", "statement": "The call shown for a transaction to be signed is shown exactly if the call bytes on their own are a call (decode_all_as_type with the call type of the metadata), and as that call, whatever extensions follow. Put into an extrinsic, unsigned or with address, signature and extra that decode on their own, the same call bytes give the same call. Conversely an accepted extrinsic made from such parts shows those parts and a call that is the one in its call bytes, except that bytes behind the call may remain (C32), in which case decode_all_as_type says so. So the call in an extrinsic is never another one than the call shown for signing the same bytes.", "quantifier": "all chains whose extrinsic call type is the call type, versions, call bytes, addresses, signatures, extras, extensions, genesis hashes", "why_tests_cant": "agreement of three entry points on all call bytes and all surroundings", "anchors": ["src/lib.rs: parse_transaction, decode_all_as_type", "src/unchecked_extrinsic.rs: decode_as_unchecked_extrinsic", "src/decoding_sci.rs: decode_as_call"]}
{"id": "C70", "title": "Type ids are only names", "statement": "If the types of a registry are numbered differently, and no type gets the number of another type it contains without an enum or a vector in between (in particular if different types get different numbers, or if types are merged under one number and the new registry has no such cycle), then the same data with the type (call, extension, extrinsic part, storage entry type) given by its new number yields the same parsed data and ends at the same position with the same external memory; errors are the same except that a type named in an error, or in an unparsed part of a storage key, is named by its new number. This holds for decode_as_type_at_position, decode_all_as_type, transactions (marked or not), unchecked extrinsics and storage entries, also if only the types needed are renumbered. Every registry can be renumbered so, and of two equal types in an acyclic registry one can be replaced by the other everywhere. If a type got the number of a type inside it, a cycle could be noticed earlier, so the condition is needed.", "quantifier": "all registries and renumberings, all memories, data, types, positions, chains, storage entries", "why_tests_cant": "a relation between the results for two arbitrary registries on all inputs, failing ones included", "anchors": ["src/lib.rs: decode_as_type_at_position, decode_all_as_type, parse_transaction, parse_transaction_unmarked", "src/decoding_sci.rs: decode_with_type, husk_type", "src/propagated.rs: Checker::check_id", "src/unchecked_extrinsic.rs: decode_as_unchecked_extrinsic", "src/storage_data.rs: decode_as_storage_entry"]}
{"id": "C71", "title": "Number of type lookups", "statement": "Decoding looks up types (resolve_ty) at most a fixed number of times for each byte of data that it uses and for each type that it is asked to decode (one for a value; the call and two for each signed extension for a transaction; four for an unchecked extrinsic; the key parts and the value for a storage entry), whether it succeeds or fails. The number depends on the types of the registry only, not on the data; types that contain themselves are allowed. It holds unless some vector has elements that take no bytes: then one byte may cost any number of lookups. The number may have to be exponential in the number of types: with n+1 types, decoding no data at all can take 2^(n+1)-1 lookups.", "quantifier": "all registries without vectors of empty elements (cyclic ones included), all memories, data, types, positions, chains, storage entries; for the exponential case all n", "why_tests_cant": "a bound on the work for all data and all registries; tests measure single runs", "anchors": ["src/decoding_sci.rs: decode_with_type, decode_elements_set, husk_type, decode_fields", "src/special_indicators.rs: SpecialtyTypeChecked::from_type, SignatureIndicator::from_field", "src/propagated.rs: Checker::check_id", "src/traits.rs: ResolveType", "src/lib.rs: decode_as_type_at_position, decode_all_as_type, parse_transaction, parse_transaction_unmarked", "src/unchecked_extrinsic.rs: decode_as_unchecked_extrinsic", "src/storage_data.rs: decode_as_storage_entry"]}
{"id": "C72", "title": "V14 and V15 metadata of one runtime give the same answers", "statement": "If V14 and V15 metadata hold the same types, pallets, signed extensions and extrinsic version, and the extrinsic type of the V14 metadata names the address, call, signature and extra types of the V15 metadata (C33), then parse_transaction, parse_transaction_unmarked and decode_as_unchecked_extrinsic give the same calls, extensions and extrinsics with both for all data, and the same errors, except that an error about the runtime version is wrapped in the V14 error type. If the V14 extrinsic type names no such types, parse_transaction still gives the same extensions or the same error and reports the metadata error for the call; parse_transaction_unmarked and decode_as_unchecked_extrinsic report it for all data.", "quantifier": "all V14 and V15 metadata of one runtime, all data, genesis hashes", "why_tests_cant": "equality of two implementations of the metadata interface on all metadata and data", "anchors": ["src/traits.rs: AsMetadata, AsCompleteMetadata for RuntimeMetadataV14 and RuntimeMetadataV15", "src/lib.rs: parse_transaction, parse_transaction_unmarked", "src/unchecked_extrinsic.rs: decode_as_unchecked_extrinsic", "src/error.rs: MetaStructureErrorV14, MetaVersionErrorPallets"]}
{"id": "C73", "title": "A composed value is decoded part by part", "statement": "decode_as_type_at_position of a struct, tuple, array, vector, enum, call or event gives exactly what one gets by decoding its parts with decode_as_type_at_position one after the other, each on its own and from where the one before ended (after the compact length of a vector, the variant index of an enum, the two indices of a call or event): if all parts decode, the value is made of them with the names, type names and docs of their fields, where parts may differ from those decoded on their own only in the labels of integers, texts and hashes (C12, C55), and ends where they end; if one fails, its error is reported. The only exception is CyclicMetadata, reported only for a type that contains itself (then it may be reported although the parts decode). Of elements of arrays and vectors whose type is a wrapper (a single-field struct, or a compact) the wrapped value is kept, and the information about the wrappers is kept once.", "quantifier": "all registries, type ids, data, positions", "why_tests_cant": "equality of one run with a sequence of runs, in different states of the cycle check and hints, for all types and data", "anchors": ["src/decoding_sci.rs: decode_with_type, decode_elements_set, decode_variant, Propagated", "src/propagated.rs: Propagated, Checker::check_id", "src/special_indicators.rs: SpecialtyTypeChecked"]}
{"id": "C74", "title": "Display parameters only format; nested values are displayed as on their own", "statement": "Carding the same parsed data or transaction with other ShortSpecs, another chain name or another setting for balances gives as many cards, at the same indents and with the same type information, showing the same values; two cards at the same place differ only if they are addresses of the same kind with the same identicon and the base58 prefixes differ, or amounts of one value and decimals or unit differ, or the chain name with one version and the names differ, or a balance shown in units and raw as requested. The cards of a value that stands inside another are consecutive among the cards of the whole and those of the value alone, indented; only the type information on the first of them may differ. A call or event inside another (batch, proxy) is displayed exactly as it would be on its own. There are fewer than three cards for each item of the data, so (as in C44) at most a constant, depending on the registry only, for each byte decoded.", "quantifier": "all parsed data and transactions, all pairs of ShortSpecs and names, all indents, all address formats, all values nested at any depth", "why_tests_cant": "a test shows single values for single chains; parsed data is nested without bound and specs range over all prefixes, decimals and units", "anchors": ["src/cards.rs: ParsedData::card, Call::card, Event::card, ExtendedData::card", "src/lib.rs: TransactionParsed::card, TransactionUnmarkedParsed::card, ShortSpecs"]}
{"id": "C75", "title": "A transaction belongs to one chain and one runtime version", "statement": "If parse_transaction (or parse_transaction_unmarked) accepts data for a genesis hash, it rejects the same data for every other genesis hash with WrongGenesisHash naming both, and rejects it, for any genesis hash or none, with metadata that differ in the runtime version, with WrongSpecVersion naming both versions. With no genesis hash given, data is accepted exactly if it is accepted for some genesis hash, with the same result. The spec name in the metadata is not checked: changing it changes no answer.", "quantifier": "all metadata, all byte strings, all pairs of genesis hashes, runtime versions and names", "why_tests_cant": "tests try a few transactions with a few hashes and versions; replay protection is about every accepted transaction and every other chain", "anchors": ["src/lib.rs: parse_transaction, parse_transaction_unmarked", "src/decoding_sci_ext.rs: check_extensions, decode_extensions, decode_extensions_unmarked"]}
{"id": "C76", "title": "A transfer is shown as the transfer it is, and nothing else is shown like it", "statement": "On a chain with the usual signed extensions and a Balances transfer call, for every recipient, amount below 2^128, era, nonce, tip, transaction version, genesis and block hash: the bytes that a wallet composes for signing the transfer are accepted by parse_transaction and parse_transaction_unmarked (for the genesis hash of the chain or none), the printed cards of the call are exactly the eight lines with pallet, call, recipient address and amount, and those of the extensions are exactly the signed values. Conversely, any accepted data whose printed cards are these lines are exactly these bytes; and two such transfers with the same signed bytes, or with the same lines, have the same recipient and amount and agree in every value that an extension of the chain signs. Westend 9111, Polkadot 9430 (V14), 1000001 and 1003003 (V15), Astar 66, Bifrost 982 and Statemint 1002000 are such chains (on the latter the tip is shown as a plain number, with the asset None; on Polkadot 1003003 the hash of the metadata may be signed, too, and is shown).", "quantifier": "all such metadata, all recipients, amounts and signing parameters, all byte strings for the converse", "why_tests_cant": "the tests of the repository print a handful of transfers; the claim is about all of the 2^384 recipients and amounts and all values of the extensions, and its converse about all byte strings", "anchors": ["src/lib.rs: parse_transaction, parse_transaction_unmarked, TransactionParsed::card", "src/decoding_sci.rs: decode_as_call, decode_with_type", "src/decoding_sci_ext.rs: decode_extensions, check_extensions", "src/cards.rs: ParsedData::card, ExtendedCard::show", "src/printing_balance.rs: convert_balance_pretty"]}
{"id": "C77", "title": "A transfer in a block is shown as it was signed, and the lines of an extrinsic determine its bytes", "statement": "On the chains of C76, for every sender, recipient, amount, signature of any of the three kinds and all values of the extensions: the extrinsic made of them is accepted by decode_as_unchecked_extrinsic; the printed cards of its parts are exactly the sender, the signature, the tuple of extensions and the eight lines of the transfer, and its call is the very value that parse_transaction returned when the transfer was signed. Conversely, an extrinsic whose parts are printed like this consists of exactly these bytes, except that bytes may follow the call within the announced length; and two such extrinsics with the same bytes, or printed alike, have the same sender, signature, recipient and amount and agree in every value that an extension puts into the extrinsic. For arbitrary metadata: two extrinsics, both signed or both unsigned, with the same printed lines are the same extrinsic and agree in all bytes that are read (which in a frame of their own are this extrinsic).", "quantifier": "all such metadata, all senders, recipients, amounts, signatures and extension values; for the converse all byte strings; the last sentence for all metadata in which printed values are told apart (C47)", "why_tests_cant": "the repository tests one signed transfer; the claim is about all signed transfers and, conversely, about all pairs of extrinsics", "anchors": ["src/unchecked_extrinsic.rs: decode_as_unchecked_extrinsic, UncheckedExtrinsic", "src/decoding_sci.rs: decode_with_type, decode_as_call", "src/cards.rs: ExtendedData::card, Call::card, ExtendedCard::show"]}
{"id": "C78", "title": "The storage entry of an account is shown with exactly its address and numbers, and only that entry is", "statement": "For every account and all values of its nonce, reference counters and balances: the key made of any 32 bytes of prefix, the blake2_128 hash of the account and the account, together with the encoded value, is accepted by decode_as_storage_entry for a map with hasher Blake2_128Concat; the printed cards are the address and the nineteen lines with these numbers, the balances as amounts in the unit of the chain. Conversely, an entry whose key and value are printed like this has this hash and account after the prefix and exactly this value; accounts with different numbers are printed differently. On nine metadata files of the repository this holds for the entry System.Account with the actual hash function, address format and prefix.", "quantifier": "all metadata with these types, all prefixes, accounts and numbers in range; for the converse all keys and values", "why_tests_cant": "a test shows a few accounts; the claim is about 2^256 accounts with eight numbers each and, conversely, about all byte strings", "anchors": ["src/storage_data.rs: decode_as_storage_entry, process_key_mapped", "src/decoding_sci.rs: decode_with_type", "src/cards.rs: ExtendedData::card, ExtendedCard::show", "src/printing_balance.rs: convert_balance_string"]}
{"id": "C79", "title": "Any call is accepted with the extensions shown as signed; a batch of transfers is shown with exactly these transfers", "statement": "On a chain with the usual signed extensions (C76), every encoded value of the call type is accepted by parse_transaction and parse_transaction_unmarked as the call that it encodes, and the printed extensions are the signed values. If the call is a batch of the pallet Utility, of transfers and of further batches nested in any way, the printed cards are the heading with the number of elements and then, in order and indented, the lines of every element. Conversely, the payload whose printed cards are these lines is exactly the payload of this batch: no transfer is hidden, added, reordered or altered; and batches with the same lines are the same. On seven metadata files of the repository this holds for all their transfers and batches (batch, batch_all, force_batch).", "quantifier": "all such metadata, all trees of batches and transfers whose call is shorter than 2^32 bytes, all signed values; for the converse all byte strings", "why_tests_cant": "nesting and length of batches are unbounded, and the converse is about all byte strings", "anchors": ["src/lib.rs: parse_transaction, parse_transaction_unmarked", "src/decoding_sci.rs: decode_as_call, decode_with_type, decode_elements_set", "src/cards.rs: Call::card, ParsedData::card, ExtendedCard::show"]}
{"id": "C80", "title": "Extrinsics that are not signed are shown with exactly their call, as the time set in every block", "statement": "An extrinsic without signature that sets the time of a block (pallet Timestamp, call set) is accepted by decode_as_unchecked_extrinsic for every 64-bit time and printed as the four lines with exactly this number. Conversely, an unsigned extrinsic printed like this consists of exactly these bytes, except that bytes may follow the call within the announced length. The converse holds for every call of an unsigned extrinsic, on all metadata in which printed values are told apart. On nine metadata files of the repository both hold for the actual indices and version.", "quantifier": "all metadata with such a call, all times below 2^64; for the converse all byte strings and all calls", "why_tests_cant": "2^64 times; the converse is about all byte strings", "anchors": ["src/unchecked_extrinsic.rs: decode_as_unchecked_extrinsic, UncheckedExtrinsic", "src/decoding_sci.rs: decode_with_type, decode_as_call", "src/compacts.rs: get_compact", "src/cards.rs: Call::card, ExtendedCard::show"]}
{"id": "C81", "title": "The events of a block are shown one by one with exactly their accounts, amounts, phases and topics", "statement": "The storage value of System.Events, a vector of records of phase, event and topics, is accepted by the storage decoder for every list of events whose arguments are accounts, amounts of money and reports on the execution of extrinsics (as Balances.Transfer, Staking.Rewarded, System.ExtrinsicSuccess), in every order, with any phases and topics, and is printed as one list with the phase, pallet, event, named arguments and topics of each; amounts are in the unit of the chain for the pallets Balances and Staking and raw numbers otherwise. Conversely, a value printed like this consists of exactly the bytes of these events, and different lists of events are printed differently. On eight metadata files of the repository both hold for the actual types, and transfers are among the events.", "quantifier": "all metadata with such an entry; all lists of such events shorter than 2^32, all accounts, amounts, phases, topics; for the converse all values", "why_tests_cant": "lists of any length in any order; the converse is about all byte strings", "anchors": ["src/storage_data.rs: decode_as_storage_entry", "src/decoding_sci.rs: decode_with_type, decode_elements_set, decode_variant", "src/cards.rs: Event::card, ParsedData::card, ExtendedCard::show"]}
{"id": "C82", "title": "The lines of any storage entry determine the entry", "statement": "If two storage entries are accepted by decode_as_storage_entry for the same entry metadata, and printing the parts of the key (decoded parts as their cards, bare hashes in hexadecimal) and then the value gives the same lines, one list without any separation, then the keys agree after the 32 bytes of the prefix, the values are the same bytes and the parsed entries are the same. Required: variants of one enum have different names, the address format and the bit-vector format tell inputs apart, and the first entry has no compact per-thing of 100% or more and no unused bits in a bit vector. On nine metadata files of the repository this holds for every entry, with the actual hash functions and formats.", "quantifier": "all metadata, entries with any hashers and types, keys and values; all display parameters", "why_tests_cant": "it compares all pairs of keys and values of any length", "anchors": ["src/storage_data.rs: decode_as_storage_entry, process_key_mapped", "src/cards.rs: ExtendedData::card, ExtendedCard::show"]}
{"id": "C83", "title": "Calls with the usual kinds of arguments, calls within calls among them, are shown with exactly these arguments", "statement": "On a usual chain, the signed payload of any call whose arguments are accounts, addresses, keys, signatures, hashes, amounts of money, numbers, ratios, truth values, byte strings, enum variants with any named or unnamed values, structs, tuples, vectors of these, and other calls of this kind (proxied calls, multi-signature calls, batches, in any nesting) is accepted by parse_transaction, with and without the length prefix, and printed as the pallet, the call and each argument under its name, in order, indented by depth; amounts are in the unit of the chain within the pallets Balances and Staking and raw numbers in others, byte strings are text when they are text and hexadecimal otherwise. Conversely, data printed like this is exactly the payload of this call with these arguments, and different calls have different bytes and are printed differently. On seven metadata files of the repository all of this holds for every call that fits the types, among them transfers, remarks, proxy, batch_all, as_multi_threshold_1, as_multi, approve_as_multi, bond, bond_extra, nominate, teleport_assets, reserve_transfer_assets and their limited forms, set_storage and schedule where the chain has them, with all values of the arguments; on each of the seven at least nine of ten calls, all but those listed, take arguments of these kinds.", "quantifier": "all metadata of usual chains; all calls of any nesting whose arguments fit their types, all extensions in range; for the converse all data", "why_tests_cant": "calls nest to any depth with vectors of any length; the converse is about all byte strings", "anchors": ["src/lib.rs: parse_transaction, parse_transaction_unmarked", "src/decoding_sci.rs: decode_as_call, decode_with_type, decode_variant, decode_elements_set", "src/cards.rs: Call::card, PalletSpecificData::card, ParsedData::card, ExtendedCard::show"]}
{"id": "C84", "title": "Extrinsics of a block with calls of any such kind are shown as they were signed", "statement": "On a usual chain, a signed extrinsic that contains the sender, the signature, the extensions and any call of the kind of C83 (calls within calls to any depth among them) is accepted by decode_as_unchecked_extrinsic; its call is the one that parse_transaction gave when the same call was signed, and the four parts are printed as the sender, the signature with its kind, the extensions in the extrinsic and the call with all its arguments. Conversely, an extrinsic whose four parts are printed like this consists of exactly these bytes, except that bytes may follow the call within the announced length. The bytes determine version, sender, kind of signature, signature, values of the extensions, call and the bytes after it, and so do the printed lines but for the bytes after the call. The same holds for extrinsics that are not signed. On seven metadata files of the repository this holds for every call that fits the types and all three kinds of signatures.", "quantifier": "all metadata of usual chains; all senders, signatures, extensions, calls of any nesting; for the converse all data", "why_tests_cant": "calls nest to any depth with vectors of any length; the converse is about all byte strings", "anchors": ["src/unchecked_extrinsic.rs: decode_as_unchecked_extrinsic", "src/lib.rs: parse_transaction", "src/cards.rs: Call::card, ExtendedData::card, ExtendedCard::show"]}
