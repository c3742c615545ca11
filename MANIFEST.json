{
 "claims": [
  {
   "property": "C01",
   "status": "proved",
   "theorems": [
    "c01_compact_round_trip"
   ],
   "note": ""
  },
  {
   "property": "C02",
   "status": "proved",
   "theorems": [
    "c02_compact_canonical"
   ],
   "note": ""
  },
  {
   "property": "C03",
   "status": "proved",
   "theorems": [
    "c03_round_trip",
    "c03_round_trip_acyclic",
    "c03_round_trip_usable"
   ],
   "note": "Spec.v defines enc (SCALE encoding) and view (documented parsed form) independently of the decoder."
  },
  {
   "property": "C04",
   "status": "proved",
   "theorems": [
    "c04_sound"
   ],
   "note": ""
  },
  {
   "property": "C05",
   "status": "proved",
   "theorems": [
    "c05_position_bounds",
    "slices_are_good",
    "portable_is_good"
   ],
   "note": "Any well-behaved source with any external memory."
  },
  {
   "property": "C06",
   "status": "proved",
   "theorems": [
    "c06_locality"
   ],
   "note": ""
  },
  {
   "property": "C07",
   "status": "proved",
   "theorems": [
    "c07_cut_fails"
   ],
   "note": ""
  },
  {
   "property": "C08",
   "status": "proved",
   "theorems": [
    "c08_unique_reading",
    "c08_prefix_free",
    "c08_one_value"
   ],
   "note": ""
  },
  {
   "property": "C09",
   "status": "proved",
   "theorems": [
    "c09_terminates"
   ],
   "note": "Any well-behaved source."
  },
  {
   "property": "C10",
   "status": "proved",
   "theorems": [
    "c10_cyclic_is_true",
    "c10_cyclic_is_true_any"
   ],
   "note": ""
  },
  {
   "property": "C11",
   "status": "proved",
   "theorems": [
    "c11_no_panic_type",
    "c11_no_panic_transaction",
    "c11_no_panic_marked",
    "c11_no_panic_storage",
    "c53_storage_returns"
   ],
   "note": "Storage keys: in memory (all_readable), or in memory with dead addresses (C53); other external memory failures on the second read of a key part do panic (C53 witnesses)."
  },
  {
   "property": "C12",
   "status": "proved",
   "theorems": [
    "c12_hints_only_label",
    "c12_hints_in_memory"
   ],
   "note": "Any source, in memory or external."
  },
  {
   "property": "C13",
   "status": "proved",
   "theorems": [
    "c13_docs_no_influence"
   ],
   "note": "Any data source."
  },
  {
   "property": "C14",
   "status": "proved",
   "theorems": [
    "c14_whole_blob",
    "c14_whole_blob_value"
   ],
   "note": ""
  },
  {
   "property": "C15",
   "status": "proved",
   "theorems": [
    "c15_compact_only",
    "c15_compact_other"
   ],
   "note": ""
  },
  {
   "property": "C16",
   "status": "proved",
   "theorems": [
    "c16_enum_by_index",
    "c16_unknown_index"
   ],
   "note": ""
  },
  {
   "property": "C17",
   "status": "proved",
   "theorems": [
    "c17_text",
    "c17_not_text"
   ],
   "note": ""
  },
  {
   "property": "C18",
   "status": "proved",
   "theorems": [
    "c18_bits",
    "c18_bits_too_long"
   ],
   "note": ""
  },
  {
   "property": "C19",
   "status": "proved",
   "theorems": [
    "c19_era_encode",
    "c19_era_decode",
    "c19_era_inverse",
    "c19_era_in_place"
   ],
   "note": ""
  },
  {
   "property": "C20",
   "status": "proved",
   "theorems": [
    "c20_collect",
    "c20_sequence",
    "c20_everywhere"
   ],
   "note": ""
  },
  {
   "property": "C21",
   "status": "proved",
   "theorems": [
    "c21_mark",
    "c21_mark_of",
    "c21_no_extensions",
    "c21_no_extensions_anywhere"
   ],
   "note": ""
  },
  {
   "property": "C22",
   "status": "proved",
   "theorems": [
    "c22_call_isolated",
    "c22_extensions_isolated",
    "c22_extensions_shifted"
   ],
   "note": ""
  },
  {
   "property": "C23",
   "status": "proved",
   "theorems": [
    "c23_marked",
    "c23_unmarked"
   ],
   "note": ""
  },
  {
   "property": "C24",
   "status": "proved",
   "theorems": [
    "c24_documented",
    "c24_unique",
    "c24_accepted"
   ],
   "note": ""
  },
  {
   "property": "C25",
   "status": "proved",
   "theorems": [
    "c25_marked_unmarked"
   ],
   "note": ""
  },
  {
   "property": "C26",
   "status": "proved",
   "theorems": [
    "c26_documented",
    "c26_unique",
    "c26_marks_fit",
    "c26_pattern"
   ],
   "note": ""
  },
  {
   "property": "C27",
   "status": "proved",
   "theorems": [
    "c27_storage_complete_use",
    "c27_documented",
    "c27_unique"
   ],
   "note": ""
  },
  {
   "property": "C28",
   "status": "proved",
   "theorems": [
    "c28_parts_checked",
    "c28_single_checked"
   ],
   "note": ""
  },
  {
   "property": "C29",
   "status": "proved",
   "theorems": [
    "c29_parsed",
    "c29_chain_single",
    "c29_chain_tuple"
   ],
   "note": ""
  },
  {
   "property": "C30",
   "status": "proved",
   "theorems": [
    "c30_framed_and_versioned",
    "c30_documented",
    "c30_unique",
    "c30_wrong_length",
    "c30_wrong_version"
   ],
   "note": ""
  },
  {
   "property": "C31",
   "status": "proved",
   "theorems": [
    "c31_unsigned",
    "c31_signed"
   ],
   "note": ""
  },
  {
   "property": "C32",
   "status": "proved",
   "theorems": [
    "c32_trailing_bytes_ignored",
    "c32_case"
   ],
   "note": "The code deviates from the documented complete decoding; c32_case is the counterexample."
  },
  {
   "property": "C33",
   "status": "proved",
   "theorems": [
    "c33_v14",
    "c33_v14_unique",
    "c33_usual",
    "c33_call",
    "c33_v15",
    "c33_chains"
   ],
   "note": ""
  },
  {
   "property": "C34",
   "status": "proved",
   "theorems": [
    "c34_v14",
    "c34_v15",
    "c34_unique",
    "c34_encoded",
    "c34_labels_are_names",
    "c34_named"
   ],
   "note": ""
  },
  {
   "property": "C35",
   "status": "proved",
   "theorems": [
    "c35_exact"
   ],
   "note": ""
  },
  {
   "property": "C36",
   "status": "proved",
   "theorems": [
    "c36_complete",
    "c36_only",
    "c36_zero",
    "c36_print"
   ],
   "note": ""
  },
  {
   "property": "C37",
   "status": "proved",
   "theorems": [
    "c37_outline",
    "c37_shift",
    "c37_calls"
   ],
   "note": ""
  },
  {
   "property": "C38",
   "status": "proved",
   "theorems": [
    "c38_c39_contents",
    "c38_transactions",
    "c38_innermost"
   ],
   "note": ""
  },
  {
   "property": "C39",
   "status": "proved",
   "theorems": [
    "c38_c39_contents",
    "c39_faithful",
    "c39_tally",
    "c39_hollow"
   ],
   "note": ""
  },
  {
   "property": "C40",
   "status": "proved",
   "theorems": [
    "c40_values",
    "c40_transaction",
    "c40_unmarked"
   ],
   "note": ""
  },
  {
   "property": "C41",
   "status": "proved",
   "theorems": [
    "c41_external_or_same",
    "c41_external_or_same_all",
    "c41_transaction",
    "c41_unmarked",
    "c41_unnoticed_fault"
   ],
   "note": "c41_unnoticed_fault shows that the restriction on registries is necessary."
  },
  {
   "property": "C42",
   "status": "proved",
   "theorems": [
    "c42_same_reading",
    "c42_no_empty_pallets",
    "c42_exact",
    "c42_reported",
    "c42_unnoticed_fault",
    "c42_other_pallet",
    "c42_accepted_by_fault"
   ],
   "note": "The original reading (exactly the same result) is refuted by c42_unnoticed_fault and c42_other_pallet; exact for unrecognised types."
  },
  {
   "property": "C43",
   "status": "proved",
   "theorems": [
    "c43_bits",
    "c43_same",
    "c43_exact",
    "c43_refuses",
    "c43_panics",
    "c43_wrong_bits",
    "c43_no_limit"
   ],
   "note": "The property as first stated (same bits, no panic) is false of the code: c43_panics and c43_wrong_bits are counterexamples; c43_bits and c43_exact say exactly when it holds."
  },
  {
   "property": "C44",
   "status": "proved",
   "theorems": [
    "c44_bounded",
    "c44_unbounded",
    "westend_well_formed",
    "statemint_well_formed"
   ],
   "note": "The property as first stated (any registry) is false of the code: c44_unbounded. The hypotheses of c44_bounded, and of the theorems on well-formed registries, are shown for the Westend and Statemint metadata."
  },
  {
   "property": "C45",
   "status": "proved",
   "theorems": [
    "c45_text",
    "c45_docs",
    "c45_all"
   ],
   "note": ""
  },
  {
   "property": "C46",
   "status": "proved",
   "theorems": [
    "c46_transaction",
    "c46_unmarked"
   ],
   "note": ""
  },
  {
   "property": "C47",
   "status": "proved",
   "theorems": [
    "c47_blob",
    "c47_at",
    "westend_told_apart",
    "statemint_told_apart"
   ],
   "note": "Address and bit-vector formats are parameters assumed to tell inputs apart; the condition on names is shown for the Westend and Statemint metadata."
  },
  {
   "property": "C48",
   "status": "proved",
   "theorems": [
    "c48_transaction",
    "c48_unmarked"
   ],
   "note": ""
  },
  {
   "property": "C49",
   "status": "proved",
   "theorems": [
    "c49_necessary",
    "c49_joined",
    "c49_one_line_each"
   ],
   "note": ""
  },
  {
   "property": "C50",
   "status": "proved",
   "theorems": [
    "c50_value",
    "c50_all",
    "c50_transaction",
    "c50_unmarked",
    "c50_unchecked",
    "c50_storage",
    "c50_shortened",
    "c50_westend"
   ],
   "note": ""
  },
  {
   "property": "C51",
   "status": "proved",
   "theorems": [
    "c51_value",
    "c51_all",
    "c51_never_misread",
    "c51_retained",
    "c51_transaction",
    "c51_unmarked",
    "c51_unchecked",
    "c51_storage",
    "c51_westend"
   ],
   "note": ""
  },
  {
   "property": "C52",
   "status": "proved",
   "theorems": [
    "c52_words",
    "c52_transaction_messages",
    "c52_parser_messages",
    "c52_storage_messages",
    "c52_unchecked_messages",
    "c52_metadata_messages",
    "c52_premises_met"
   ],
   "note": ""
  },
  {
   "property": "C53",
   "status": "proved",
   "theorems": [
    "c53_consumed_is_readable",
    "c53_storage_returns",
    "c53_storage",
    "c53_storage_refusals",
    "c53_unchecked",
    "c53_transient_panic",
    "c53_refusal_panic"
   ],
   "note": ""
  },
  {
   "property": "C54",
   "status": "proved",
   "theorems": [
    "c54_consumed_suffice",
    "c54_exactly_consumed",
    "c54_prefix_not_checked",
    "c54_prefix_unread"
   ],
   "note": ""
  },
  {
   "property": "C55",
   "status": "proved",
   "theorems": [
    "c55_names_only_label",
    "c55_whole_blob",
    "c55_storage",
    "c55_call",
    "c55_unchecked"
   ],
   "note": ""
  },
  {
   "property": "C56",
   "status": "proved",
   "theorems": [
    "c56_value",
    "c56_blob",
    "c56_storage",
    "c56_transaction",
    "c56_unmarked",
    "c56_unchecked"
   ],
   "note": ""
  },
  {
   "property": "C57",
   "status": "proved",
   "theorems": [
    "c57_notes",
    "c57_call",
    "c57_transaction",
    "c57_marked"
   ],
   "note": ""
  },
  {
   "property": "C58",
   "status": "proved",
   "theorems": [
    "c58_sound",
    "c58_complete",
    "c58_documented",
    "c58_unique",
    "c58_beyond",
    "c58_trimmed",
    "c58_entry",
    "c58_value_moved"
   ],
   "note": ""
  },
  {
   "property": "C59",
   "status": "proved",
   "theorems": [
    "c59_husk",
    "c59_husk_unique",
    "c59_husk_inside",
    "c59_signature",
    "c59_signature_unique",
    "c59_recognised",
    "c59_recognised_unique",
    "c59_pick",
    "c59_order",
    "c59_order_unique"
   ],
   "note": ""
  },
  {
   "property": "C60",
   "status": "proved",
   "theorems": [
    "c60_true",
    "c60_enum",
    "c60_registry",
    "c60_value",
    "c60_short",
    "c60_compact",
    "c60_cut"
   ],
   "note": ""
  },
  {
   "property": "C61",
   "status": "proved",
   "theorems": [
    "c61_accuses",
    "c61_accuses_all",
    "c61_registry_innocent"
   ],
   "note": ""
  },
  {
   "property": "C62",
   "status": "proved",
   "theorems": [
    "c62_first_fault",
    "c62_one_fault",
    "c62_no_value",
    "c62_rejected",
    "c62_exact",
    "c62_value_or_fault",
    "c62_exact_all",
    "c62_decoder"
   ],
   "note": ""
  },
  {
   "property": "C63",
   "status": "proved",
   "theorems": [
    "c63_transaction",
    "c63_unmarked",
    "c63_unchecked",
    "c63_storage",
    "c63_key",
    "c63_version_v14",
    "c63_version_v15",
    "c63_one_answer",
    "westend_usable",
    "statemint_usable",
    "acala2012_usable",
    "polkadot9430_usable",
    "polkadot15_usable"
   ],
   "note": "the hypotheses are decidable; PropReal.v decides them for every registry in the tests of the repository"
  },
  {
   "property": "C64",
   "status": "proved",
   "theorems": [
    "c64_requests",
    "c64_requests_all",
    "c64_decode",
    "c64_decode_all",
    "c64_transaction",
    "c64_transaction_unmarked",
    "c64_storage",
    "c64_unchecked",
    "c64_64bit",
    "c64_unchecked_64bit",
    "c64_32bit_wrapping",
    "c64_mark_32bit",
    "c64_transaction_32bit",
    "c64_unchecked_32bit"
   ],
   "note": "the panic of an overflowing sum inside the memory is shown as an error of the memory; C11 (no panic) holds for 64-bit targets, and on 32-bit ones without overflow checks"
  },
  {
   "property": "C65",
   "status": "proved",
   "theorems": [
    "c65_decode",
    "c65_decode_all",
    "c65_transaction",
    "c65_transaction_unmarked",
    "c65_unchecked",
    "c65_storage",
    "c65_counted",
    "c65_types",
    "c65_in_memory",
    "c65_empty_enum"
   ],
   "note": "reads of the data; lookups of types are counted in C71"
  },
  {
   "property": "C66",
   "status": "proved",
   "theorems": [
    "c66_same_call",
    "c66_decode_all",
    "c66_transaction",
    "c66_exact_extensions",
    "c66_unmarked",
    "c66_unchecked",
    "c66_storage",
    "c66_not_recognised"
   ],
   "note": "readings may differ from the fault-free ones in which enums are recognised as calls, events or bare signatures (C42 shows that this happens)"
  },
  {
   "property": "C67",
   "status": "proved",
   "theorems": [
    "c67_base58",
    "c67_address",
    "c67_one_key",
    "c67_injective",
    "c67_one_text",
    "c67_letters",
    "c67_blake",
    "c67_formats",
    "c67_cards",
    "c67_lines",
    "c67_transaction"
   ],
   "note": "the address and bit-vector texts come from other crates; addresses are checked against those in the tests of the repository"
  },
  {
   "property": "C68",
   "status": "proved",
   "theorems": [
    "c68_levels",
    "c68_consumed",
    "c68_by_type",
    "c68_transaction",
    "c68_unmarked",
    "c68_unchecked",
    "c68_storage",
    "c68_deep",
    "c68_indents",
    "c68_call_indents",
    "c68_u32"
   ],
   "note": ""
  },
  {
   "property": "C69",
   "status": "proved",
   "theorems": [
    "c69_signing",
    "c69_unsigned",
    "c69_signed",
    "c69_unsigned_back",
    "c69_signed_back",
    "c69_signed_is_included",
    "c69_never_another_call"
   ],
   "note": ""
  },
  {
   "property": "C70",
   "status": "proved",
   "theorems": [
    "c70_value",
    "c70_all",
    "c70_transaction",
    "c70_unmarked",
    "c70_unchecked",
    "c70_storage",
    "c70_reordered",
    "c70_chain",
    "c70_entry",
    "c70_turned",
    "c70_duplicate",
    "c70_distinct_needed"
   ],
   "note": ""
  },
  {
   "property": "C71",
   "status": "proved",
   "theorems": [
    "c71_decode",
    "c71_decode_all",
    "c71_transaction",
    "c71_transaction_unmarked",
    "c71_unchecked",
    "c71_storage",
    "c71_counted",
    "c71_in_memory",
    "c71_westend",
    "c71_statemint",
    "c71_empty_elements",
    "c71_exponential"
   ],
   "note": "lookups of types; reads of the data are counted in C65"
  },
  {
   "property": "C72",
   "status": "proved",
   "theorems": [
    "c72_transaction",
    "c72_unchecked",
    "c72_no_params",
    "c72_either"
   ],
   "note": ""
  },
  {
   "property": "C73",
   "status": "proved",
   "theorems": [
    "c73_parts",
    "c73_struct",
    "c73_tuple",
    "c73_array",
    "c73_vector",
    "c73_plain_elements",
    "c73_enum",
    "c73_call_or_event",
    "c73_acyclic"
   ],
   "note": "Arrays and vectors: for element types that can be followed to their end (peel_from), others are refused."
  },
  {
   "property": "C74",
   "status": "proved",
   "theorems": [
    "c74_formats",
    "c74_differ",
    "c74_transaction",
    "c74_transaction_unmarked",
    "c74_nested",
    "c74_top",
    "c74_nested_call",
    "c74_nested_event",
    "c74_count",
    "c74_count_decoded"
   ],
   "note": ""
  },
  {
   "property": "C75",
   "status": "proved",
   "theorems": [
    "c75_other_genesis",
    "c75_other_genesis_unmarked",
    "c75_no_genesis",
    "c75_no_genesis_unmarked",
    "c75_other_version",
    "c75_other_version_unmarked",
    "c75_name_not_checked",
    "c75_name_not_checked_unmarked"
   ],
   "note": ""
  },
  {
   "property": "C76",
   "status": "proved",
   "theorems": [
    "c76_transfer",
    "c76_only_transfer",
    "c76_signed_tells",
    "c76_lines_tell",
    "c76_westend",
    "c76_polkadot9430",
    "c76_polkadot15",
    "c76_polkadot1003003",
    "c76_astar",
    "c76_bifrost",
    "c76_statemint"
   ],
   "note": "For chains with the usual extensions and transfer calls (SpecTransfer.v); the seven real ones of the repository by computation."
  },
  {
   "property": "C77",
   "status": "proved",
   "theorems": [
    "c77_lines",
    "c77_parts",
    "c77_included",
    "c77_only_included",
    "c77_bytes_tell",
    "c77_lines_tell",
    "c77_westend",
    "c77_polkadot9430",
    "c77_polkadot15",
    "c77_polkadot1003003",
    "c77_astar",
    "c77_bifrost",
    "c77_statemint"
   ],
   "note": "Signed extrinsics with transfers on the chains of C76 (SpecIncluded.v); c77_lines and c77_parts for any metadata. c77_example is the extrinsic of the repository's own test."
  },
  {
   "property": "C78",
   "status": "proved",
   "theorems": [
    "c78_account",
    "c78_only_account",
    "c78_lines_tell",
    "c78_westend",
    "c78_polkadot9430",
    "c78_polkadot15",
    "c78_polkadot1003003",
    "c78_astar",
    "c78_bifrost",
    "c78_statemint",
    "c78_acala2012",
    "c78_acala2200"
   ],
   "note": "Types, bytes and lines in SpecAccount.v. The prefix of the key is not looked at by the code, so the converse says nothing about it. c78_example: an account on Polkadot, and four damaged entries."
  },
  {
   "property": "C79",
   "status": "proved",
   "theorems": [
    "c79_call",
    "c79_batch",
    "c79_only_batch",
    "c79_lines_tell",
    "c79_westend",
    "c79_polkadot9430",
    "c79_polkadot15",
    "c79_polkadot1003003",
    "c79_astar",
    "c79_bifrost",
    "c79_statemint"
   ],
   "note": "Trees, bytes and lines in SpecBatch.v. c79_example: a batch within a batch on Westend, with its lines."
  },
  {
   "property": "C80",
   "status": "proved",
   "theorems": [
    "c80_lines",
    "c80_clock",
    "c80_only_clock",
    "c80_westend",
    "c80_polkadot9430",
    "c80_polkadot15",
    "c80_polkadot1003003",
    "c80_astar",
    "c80_bifrost",
    "c80_statemint",
    "c80_acala2012",
    "c80_acala2200"
   ],
   "note": "Call, bytes and lines in SpecClock.v. c80_example: a time on Polkadot, evaluated, and three refused extrinsics."
  },
  {
   "property": "C81",
   "status": "proved",
   "theorems": [
    "c81_events",
    "c81_only_events",
    "c81_lines_tell",
    "c81_polkadot9430",
    "c81_polkadot15",
    "c81_polkadot1003003",
    "c81_astar",
    "c81_bifrost",
    "c81_statemint",
    "c81_acala2012",
    "c81_acala2200"
   ],
   "note": "Types, bytes and lines in SpecEvents.v. c81_example: four events of a block on Polkadot, evaluated, and four refused entries."
  },
  {
   "property": "C82",
   "status": "proved",
   "theorems": [
    "c82_lines",
    "c82_real"
   ],
   "note": "Any metadata (PropEntry.v); c82_case: an entry with three hashers, one of them opaque."
  },
  {
   "property": "C83",
   "status": "proved",
   "theorems": [
    "c83_order",
    "c83_only_order",
    "c83_bytes_tell",
    "c83_lines_tell",
    "c83_like",
    "c83_samples",
    "c83_westend",
    "westend_samples_ok",
    "c83_polkadot9430",
    "polkadot9430_samples_ok",
    "c83_polkadot15",
    "polkadot15_samples_ok",
    "c83_polkadot1003003",
    "polkadot1003003_samples_ok",
    "c83_astar",
    "astar_samples_ok",
    "c83_bifrost",
    "bifrost_samples_ok",
    "c83_statemint",
    "statemint_samples_ok",
    "c83_covered",
    "c83_westend_calls",
    "c83_polkadot9430_calls",
    "c83_polkadot15_calls",
    "c83_polkadot1003003_calls",
    "c83_astar_calls",
    "c83_bifrost_calls",
    "c83_statemint_calls"
   ],
   "note": "Any usual chain (PropOrder.v) and seven real chains (PropOrderReal.v); c83_example: a proxied multi-signature call of a batch of three calls; c83_token: a token sent to another chain; c83_scheduled: a scheduled call. PropOrderAll.v: 197 of 208, 323 of 334, 278 of 288, 301 of 318, 163 of 172, 419 of 431 and 233 of 242 calls."
  },
  {
   "property": "C84",
   "status": "proved",
   "theorems": [
    "c84_included",
    "c84_only_included",
    "c84_bytes_tell",
    "c84_lines_tell",
    "c84_unsigned",
    "c84_only_unsigned",
    "c84_westend",
    "c84_polkadot9430",
    "c84_polkadot15",
    "c84_polkadot1003003",
    "c84_astar",
    "c84_bifrost",
    "c84_statemint"
   ],
   "note": "Any usual chain (PropBlock.v) and seven real chains (PropBlockReal.v); c84_example: the nested call of c83_example in a signed extrinsic, and the time of a block."
  }
 ]
}