# Formal model of substrate-parser in Rocq/Coq 8.16.1

## Approach

`rocq/theories` holds an executable Gallina model of the crate, written function by
function (each definition cites the file and lines it models), a separate small
specification (SCALE encoder over generic values, documented labels, documented parsed
form, decimal numbers, ...), proofs, and property files which contain only the theorems
(`exact lemma.` + `Print Assumptions`) and the non-vacuity examples.

* A decoder step is a function of (position, external memory state) returning an outcome
  (`Ok | Err | Panic | OutOfFuel`), the new position and the new memory state: positions
  are kept on errors too, panics are explicit values, and fuel exhaustion is a separate
  outcome excluded by a theorem.
* Data sources are records of functions (`buffer`, `registry`) over an arbitrary external
  memory state, with the in-memory instances (`slice_buffer`, `portable`) as a special
  case; most theorems are about the in-memory instances, C41/C42 about arbitrary ones.
* The recursion of `decode_with_type` uses open recursion + explicit fuel; the fuel used
  by the API functions is a function of buffer length and number of types, proved
  sufficient for every registry (C09).

## Per-property plan

| id | what is modelled | how it is proved |
|----|------------------|------------------|
| C01, C02 | `find_compact`, `get_compact`, parity-scale-codec `Compact<T>::decode` | spec: canonical compact encoder; algebra on LE numbers; the brute-force loop returns the least prefix that decodes |
| C03, C04 | the whole of `decode_with_type` and helpers | spec: generic SCALE values, encoder `enc`, documented form `view`; C04 induction on fuel, C03 induction on the value |
| C05 | same | Hoare-style invariant for every monadic step, all outcomes |
| C06-C08 | same | corollaries of C03/C04 with the cycle check made explicit |
| C09 | same | measure (bytes left, ids left) bounds the recursion depth |
| C10 | `Checker::check_id` | invariant: the tracked ids form a chain of direct containment |
| C11 | all `expect`, `unreachable!`, slicing as `Panic` outcomes | Hoare-style: `Panic` not reachable |
| C12, C13 | hints, docs | spec-level: encoder independent of hints and docs; view up to label/doc erasure |
| C14 | `decode_all_as_type` | case analysis |
| C15 | compact propagation | spec predicate "compactable"; from C04 |
| C16 | `pick_variant`, `decode_variant` | list search characterisation |
| C17 | `decode_str`, UTF-8 validity | spec: concatenation of encodings of scalar values; automaton equivalence |
| C18 | bit sequences | spec: bit-list packing; arithmetic on bits |
| C19 | `Era` | finite sweep over the 2^16 code words lifted by `forallb_forall`, and arithmetic |
| C20 | `wrap_sequence` | induction on the list |
| C21-C26 | `MarkedData`, `decode_as_call*`, `decode_extensions*`, `check_extensions`, `parse_transaction*` | corollaries of the decoder theorems + list reasoning |
| C27-C29 | `storage_data.rs`, hash functions are abstract parameters | same |
| C30-C32 | `unchecked_extrinsic.rs` | same; C32 (complete use of the data) is refuted by a counterexample and restated |
| C33, C34 | `traits.rs` V14/V15 impls | case analysis + spec by named parameters; labels are linked to field names through the documented form of decoded values |
| C35, C36 | `printing_balance.rs` | exact arithmetic on decimal digit strings |
| C37-C40, C45, C46 | `cards.rs`, `TransactionParsed::card`; base58 and identicon abstract | structural induction on parsed data |
| C41, C42 | arbitrary external memory | simulation between two data sources; C42 as first stated (same result after a transient fault) is refuted by counterexamples and restated: same bytes consumed, same reading up to the recognition of pallet items |
| C43 | 32-bit patch for u64 bit vectors | as first stated refuted (panic and wrong bits, concrete cases); the exact condition for equality with the 64-bit code is proved |
| C47-C49 | cards and `ExtendedCard::show` over the decoder | induction on SCALE values: printed lines are prefix-free and determine the encoding; counterexamples by evaluation |
| C50 | the whole decoder over two registries | induction on the fuel of the decoder in lockstep, with the cycle check turned into a set of ids; equality of runs; instance for Westend with about half of the types emptied |
| C51 | the decoder over two in-memory registries, one with fewer variants | simulation between the two runs (same result or UnexpectedEnumVariant) by induction on the fuel; swallowed errors of the look-ahead treated separately; instance: Westend with one pallet, under 40 of 597 types |
| C52 | (also: each message says its phrases, `SpecErrors.v` *_phrases) the texts of all error types (model `Errors`, every literal compared with the source by script), texts of `BufferError` and of the external memory as parameters | case analysis over pairs of errors: differing literals clash, numbers and hashes are delimited; returned errors carry byte hashes and decimal versions (from C24, C26); premises on the parameters shown satisfiable |
| C53 | external memory as buffer with dead addresses (`SpecHoles.holes`) or refused requests (`faulty_copy`) | every successful read delivers its range, so by induction over the decoder every consumed byte was read (ProofCover); hence the second read of a key succeeds; two-run simulation for the rest; panicking runs computed |
| C54 | as C53 | two-run induction over the decoder: a read lies inside what is consumed afterwards, or its result does not matter; storage: simulation from position 32 on |
| C55 | decoder over any buffer, two registries related by `same_types` (SpecRename.v) | simulation of two runs; checkers agree up to hints, collected sequences agree up to how they are collected |
| C56 | as C04, C27, C30, C48 | from C47 (with hexadecimal addresses and plain bits as one faithful display) and the soundness theorems of storage and unchecked extrinsics |
| C57 | cards; `sheets` (SpecNotes.v) lists the notes due on each card | induction over parsed data |
| C58 | `process_key_mapped` from any position | the answer relation of C27 with a start; two runs over data shifted by any distance (as in C22) |
| C59 | the public building blocks of the decoder | relations for the type inside, for a signature field and for a recognised type; each function gives the unique related answer |
| C60 | errors of the decoder, two runs over slices that agree up to the place named | relational induction over the decoder: each error with the extent of data that decides it |
| C61 | errors of the decoder against a relation `accuses` (SpecBlame.v) between types needed, data and error | induction over the decoder carrying which type is being decoded and which compact is around it |
| C62 | errors of the decoder against a relation `fault` (SpecFault.v): the first fault of the data in layout order, told with encodings (`enc`) only | decoder run ⇒ fault by induction carrying the value read so far; prefix-freeness of encodings in any registry (ProofPrefixFree.v), from which faults exclude values and are unique (ProofFault2.v); with C04, C11, C61 the equivalence |
| C63 | answers of `parse_transaction(_unmarked)`, `decode_as_unchecked_extrinsic`, `decode_as_storage_entry`, `process_key_mapped` and `spec_name_version` against relations (SpecWhole.v) told with encodings, views and faults only | the relations have at most one answer by prefix-freeness and uniqueness of faults; the documented outcomes (C24, C26, C27, C30, C34, C58), told with the decoder, are rewritten with C62; usability decided for real registries by a verified checker (CheckUsable.v, PropReal.v) |
| C64 | the parsers with `usize` of W bits and checked or wrapping sums (Word.v) against the unbounded model | relational induction over the decoder: two memories that agree on the requests made (`asked`, SpecWord.v) give the same run (ProofAsk.v), then agreement of the machine's memory with the unbounded one on such requests (ProofWord.v). Finding: on 32-bit targets with overflow checks the five bytes 03 ff ff ff ff make `MarkedData::mark` (lib.rs:584) and `decode_as_unchecked_extrinsic` (unchecked_extrinsic.rs:93) panic; without checks the latter reports the wrong error |
| C65 | runs over any memory with a measure of its state that a read raises by at most one | judgement `pays` (reads made, position reached) composed along the code; potential argument of two reads per byte used (ProofReads.v, ProofReads2.v); the count needs no enum without variants that is named like calls, events or signatures (counterexample proved) |
| C66 | runs over memory and types with transient faults, against the run over data in memory | relation `simz` between the two runs (a result is matched, an error is the memory's or matched, a panic only where an unwrapped read can fail), composed along the code of transactions, unchecked extrinsics and storage (ProofTransient2.v); what faults can give is said in SpecTransient2.v; examples of every kind of fault on the sample chain |
| C67 | `to_base58_string` (base 58, SS58 types, checksum; hash arbitrary or Blake2b, modelled in Blake2b.v), text of bit vectors (Address.v) | canonical digits of numbers in any base; types by a check of all 2^14; relational specification of base 58 and addresses (SpecAddress.v); instances of C39, C47, C48 without hypotheses on the formats |
| C68 | levels of parsed data and indents of cards | the results of any computation satisfy a bound by induction on the decoder's recursion (ProofDepth.v), with C09 the recursion is bounded; by type: induction on values with C04 (ProofDepth2.v); unboundedness: C03 on a family of values |
| C69 | transactions, extrinsics and plain decoding of the same call bytes | C06 (locality) moves decoded parts to other places, C26 and C30 (documented answers, unique) say what the entry points do with them (PropInclude.v) |
| C70 | decoding with a registry and with a renumbered one | simulation of the two runs: related checkers (path of ids mapped), same positions and values, errors mapped (ProofRenumber.v), lifted to the API (ProofRenumber2.v); types may be merged unless one is inside the other; a registry turned around and one freed of a duplicate as instances, merging along a cycle as a counterexample |
| C71 | runs over any registry with a measure of its state that a lookup raises by at most one | judgement `pays` again, with a potential: a value without bytes costs at most `nested` lookups (the ids on the path are different, so nesting is bounded by the number of types), a value with bytes pays `effort` for each byte and leaves enough for the next one; elements of vectors are never without bytes (ProofLookups.v, ProofLookups2.v, ProofLookups3.v); a doubling registry shows for every n that the exponent is needed |
| C72 | the two implementations of the metadata interface | relational judgement `alike2` on two runs with different error types: same moves, values related, errors related by `same_error`; the parameters of V14 by `v14_answer` (C33) |
| C73 | the decoder against `decode_at` of its parts (`one_by_one`) | judgement `lag`: a run that has met more types does the same or reports `CyclicMetadata`; hints only label (as in C12); then one level of the decoder is unfolded |
| C74 | the carding functions for two sets of parameters; values nested in parsed data (`inside`) | induction on parsed data; shift of indents from C37, size bound from C44 |
| C75 | the transaction functions for two genesis hashes, versions, names | from the documented outcome of extensions (C24) and its uniqueness; direct computation for the unmarked form |
| C76 | transactions and cards end to end, for transfers; metadata of seven real chains | the bytes a wallet composes and the lines to be read are specified without the decoder (SpecTransfer.v); parsing from completeness (C03) and the rules for extensions (C24), converse from C48; that bytes and lines tell recipient, amount and signed values (PropTells.v) from the codes being prefix-free; conditions on the metadata are checked by sound boolean functions on the real registries |
| C77 | unchecked extrinsics and cards end to end, for signed transfers; metadata of the seven chains of C76 | bytes and lines specified in SpecIncluded.v without the decoder; parsing from completeness and C69 (what is signed is what is included); the lines of the four parts from C47, one part after the other, framing from C30; that bytes and lines tell the values in PropTells2.v |
| C78 | storage entries and cards end to end, for accounts; the types of nine metadata files of the repository (that System.Account is a map from type 0 to type 3 there is read off the metadata, not modelled) | bytes and lines specified in SpecAccount.v without the decoder; parsing from C29, the converse from C27, C28 and C47; that the lines tell the numbers (PropTells.v) from C36; the actual hash and address format from C67 |
| C79 | parse_transaction and cards end to end, for any call and for trees of batches and transfers; the types of seven metadata files of the repository | bytes and lines specified in SpecBatch.v by recursion on the tree, without the decoder; induction on the tree with C03 (values), C46 (cards); the converse from C48 |
| C80 | unchecked extrinsics and cards end to end, without signature; the types of nine metadata files of the repository | bytes and lines specified in SpecClock.v; acceptance from C69, the converse for any call from the documented answer of unchecked extrinsics and C47 |
| C81 | storage entries, events and cards end to end; the types of eight metadata files of the repository | types, bytes and lines specified in SpecEvents.v; lines put together part by part (numbers, accounts, hashes, structs, enums, vectors, events), acceptance from C29, the converse from C47 |
| C82 | storage entries and cards, any metadata | each part of the key gives up its bytes and the lines after it (C47, hexadecimal is injective), one part after the other, then the value; the parsed entry from the bytes by C08 |
| C83 | transactions and cards, any metadata of a usual chain, seven real chains | induction on the arguments: each is written, viewed and printed as specified (SpecOrder.v), struct fields and vector elements through the lemmas of C81, calls as in C79; the converse by C48; bytes are prefix-free by a second induction; for real chains a proved checker decides which calls fit the types; arguments are made up for all calls but those listed (PropOrderAll.v) |
| C84 | unchecked extrinsics and cards, any metadata of a usual chain, seven real chains | C77 with the call of C83 in place of the transfer: address, signature and extensions as there, the call by C83, the converse by `c77_parts` and C80; the bytes by the prefix-freeness of C83 |
| C44 | size of the output, all of `decode_with_type` | as first stated refuted (2^30 elements from 4 bytes); linear bound for registries without zero-size elements, shown for two real metadata files |


## Files

| files | content |
|-------|---------|
| Base, Compact, Types, Indicators, Decode, Sign, Unchecked, Storage, Meta, Balance, Cards, Errors, Patch32 | the model, no proofs |
| Test* | the model evaluated on the inputs of every test in /repo/src (tests.rs, printing_balance.rs, additional_types.rs, decoding_sci.rs), with the real metadata of /repo/for_tests converted to Gallina by the scripts in tools/; all of them give the answer the test expects. Evidence that the model is faithful, not proofs |
| Spec* | the specifications: what the theorems are stated with |
| Api, ApiSign, ApiStorage | abbreviations for "run the API function on in-memory data" |
| Proof*, CheckWf | proofs |
| Sample, SampleChain | a small registry and chain used in non-vacuity examples |
| Prop* | the theorems of MANIFEST.json, each with `Print Assumptions`, and an example which meets its hypotheses |

## Trusted base

1. Coq 8.16.1: kernel, and its `vm_compute` machine (used by some proofs by evaluation).
2. `Print Assumptions` reports "Closed under the global context" for every theorem of
   MANIFEST.json (the property files contain the commands, so the build log shows it). No
   axioms, no `Admitted`, no parameters outside of closed sections, no functors. Only the
   standard library is used; its axioms `Coq.ssr.ssrunder.*` are loaded with the library
   but no theorem depends on them.
3. The model is a faithful transcription of the code: by reading, and by the Test files.
   `seeded/LOG.jsonl` records what happens to the theorems when the model is changed.
4. The definitions in the Spec files say what the English properties say.

### What of the code is modelled

| source | modelled | not modelled |
|--------|----------|--------------|
| compacts.rs | all | |
| decoding_sci.rs | all, including the 32-bit path for bit vectors with u64 store (Patch32.v) | |
| decoding_sci_ext.rs | all | |
| special_types.rs, special_indicators.rs, propagated.rs | all | |
| additional_types.rs | `Era` | the hash and key types are byte strings (of the right length by construction) |
| lib.rs | `MarkedData`, `parse_transaction*`, `TransactionParsed::card`, `decode_as_type_at_position`, `decode_all_as_type`, `ShortSpecs` | documentation examples |
| traits.rs | `AsMetadata`, `AsCompleteMetadata`, `ResolveType` as interfaces; their implementations for `RuntimeMetadataV14`, `RuntimeMetadataV15`, `PortableRegistry` | |
| unchecked_extrinsic.rs, storage_data.rs | all | |
| printing_balance.rs | all | |
| cards.rs | `Info`, `ParsedData`, `card` functions, `ExtendedCard::show`, `show_with_docs` | identicon PNG (arbitrary function); base58 text and the text of bit vectors are arbitrary functions in Cards.v, modelled in Address.v (C67) |
| error.rs | the error values, their texts (`Display`) | the text of `BufferError` and of the external memory error (parameters), `source` (always `None`), `Debug` |
| tests.rs and the unit tests in the other files | all of them are replayed on the model (with real addresses and hashes; identicons not compared) | |

### Behaviour of other crates that is part of the model

* parity-scale-codec 3.6.12: `Compact<T>::decode`, `BitVec<T, O>::decode` (limit of
  0x1fff_ffff bits), `bool` is 0 or 1, little-endian integers, `decode_all`.
* sp_arithmetic 26: plain per-things above one are rejected, compact ones saturate.
* core: `char::from_u32`, `String::from_utf8` (validity automaton of table 3-7).
* num-bigint `from_bytes_le`, `from_signed_bytes_le`.
* external-memory-tools 0.1.1: `AddressableBuffer` for `&[u8]`, `limit_length`.
* scale-info 2.11.5: `PortableRegistry`, `Path::ident`, `Path::namespace`.
* frame_metadata 18: the fields of V14 and V15 metadata that are used.
* bitvec: `from_vec`, `split_off` (panics beyond the length), bit orders.
* hash functions (`blake2_128`, `twox_64`), base58, identicons: arbitrary functions in the
  theorems. Blake2b.v, Twox.v and Address.v model the hashes, `to_base58_string` of
  substrate-crypto-light 0.2.0 and the `Display` of bitvec 1.0.1 (groups of the bits of one
  element; no test of the repository shows one); they are used to replay the tests, and C67
  is about the latter two.

### Simplifications

* `usize` and `u32` counters (positions, indents, numbers of fields) are unbounded; type
  identifiers and lengths in the registry are arbitrary numbers. That no sum of a position
  and a length overflows on 64-bit targets, and what happens on 32-bit ones, is C64; that
  indents fit in 32 bits unless the data is huge is C68.
* Families of enum constructors with the same payload are merged (see Types.v, Cards.v).
* Memory limits, the size of the call stack and time are not modelled (C44 is about the size
  of the output, C65 about the number of reads, C71 about the number of type lookups, C68 about the depth of nesting).
* A buffer that returns a slice of another length than it was asked for is a panic in the
  model; such buffers are excluded by the hypothesis `good_buffer` where it matters.
* External errors are numbers; the external memory state is of any type and may change
  with every read.
