#!/usr/bin/env python3
"""Writes MANIFEST.json from the list below."""
import json, os
C = {}
def claim(p, status, theorems, note=""):
    C[p] = {"property": p, "status": status, "theorems": theorems.split(), "note": note}

claim("C01", "proved", "c01_compact_round_trip")
claim("C02", "proved", "c02_compact_canonical")
claim("C03", "proved", "c03_round_trip c03_round_trip_acyclic c03_round_trip_usable",
      "Spec.v defines enc (SCALE encoding) and view (documented parsed form) independently of the decoder.")
claim("C04", "proved", "c04_sound")
claim("C05", "proved", "c05_position_bounds slices_are_good portable_is_good", "Any well-behaved source with any external memory.")
claim("C06", "proved", "c06_locality")
claim("C07", "proved", "c07_cut_fails")
claim("C08", "proved", "c08_unique_reading c08_prefix_free c08_one_value")
claim("C09", "proved", "c09_terminates", "Any well-behaved source.")
claim("C10", "proved", "c10_cyclic_is_true c10_cyclic_is_true_any")
claim("C11", "proved", "c11_no_panic_type c11_no_panic_transaction c11_no_panic_marked c11_no_panic_storage c53_storage_returns",
      "Storage keys: in memory (all_readable), or in memory with dead addresses (C53); other external memory failures on the second read of a key part do panic (C53 witnesses).")
claim("C12", "proved", "c12_hints_only_label c12_hints_in_memory", "Any source, in memory or external.")
claim("C13", "proved", "c13_docs_no_influence", "Any data source.")
claim("C14", "proved", "c14_whole_blob c14_whole_blob_value")
claim("C15", "proved", "c15_compact_only c15_compact_other")
claim("C16", "proved", "c16_enum_by_index c16_unknown_index")
claim("C17", "proved", "c17_text c17_not_text")
claim("C18", "proved", "c18_bits c18_bits_too_long")
claim("C19", "proved", "c19_era_encode c19_era_decode c19_era_inverse c19_era_in_place")
claim("C20", "proved", "c20_collect c20_sequence c20_everywhere")
claim("C21", "proved", "c21_mark c21_mark_of c21_no_extensions c21_no_extensions_anywhere")
claim("C22", "proved", "c22_call_isolated c22_extensions_isolated c22_extensions_shifted")
claim("C23", "proved", "c23_marked c23_unmarked")
claim("C24", "proved", "c24_documented c24_unique c24_accepted")
claim("C25", "proved", "c25_marked_unmarked")
claim("C26", "proved", "c26_documented c26_unique c26_marks_fit c26_pattern")
claim("C41", "proved", "c41_external_or_same c41_external_or_same_all c41_transaction c41_unmarked c41_unnoticed_fault",
      "c41_unnoticed_fault shows that the restriction on registries is necessary.")
claim("C27", "proved", "c27_storage_complete_use c27_documented c27_unique")
claim("C28", "proved", "c28_parts_checked c28_single_checked")
claim("C29", "proved", "c29_parsed c29_chain_single c29_chain_tuple")
claim("C30", "proved", "c30_framed_and_versioned c30_documented c30_unique c30_wrong_length c30_wrong_version")
claim("C31", "proved", "c31_unsigned c31_signed")
claim("C32", "proved", "c32_trailing_bytes_ignored c32_case", "The code deviates from the documented complete decoding; c32_case is the counterexample.")
claim("C33", "proved", "c33_v14 c33_v14_unique c33_usual c33_call c33_v15 c33_chains")
claim("C34", "proved", "c34_v14 c34_v15 c34_unique c34_encoded c34_labels_are_names c34_named")
claim("C35", "proved", "c35_exact")
claim("C36", "proved", "c36_complete c36_only c36_zero c36_print")

claim("C37", "proved", "c37_outline c37_shift c37_calls")
claim("C38", "proved", "c38_c39_contents c38_transactions c38_innermost")
claim("C39", "proved", "c38_c39_contents c39_faithful c39_tally c39_hollow")
claim("C40", "proved", "c40_values c40_transaction c40_unmarked")
claim("C45", "proved", "c45_text c45_docs c45_all")
claim("C46", "proved", "c46_transaction c46_unmarked")
claim("C42", "proved", "c42_same_reading c42_no_empty_pallets c42_exact c42_reported c42_unnoticed_fault c42_other_pallet c42_accepted_by_fault",
      "The original reading (exactly the same result) is refuted by c42_unnoticed_fault and c42_other_pallet; exact for unrecognised types.")

claim("C43", "proved", "c43_bits c43_same c43_exact c43_refuses c43_panics c43_wrong_bits c43_no_limit", "The property as first stated (same bits, no panic) is false of the code: c43_panics and c43_wrong_bits are counterexamples; c43_bits and c43_exact say exactly when it holds.")
claim("C44", "proved", "c44_bounded c44_unbounded westend_well_formed statemint_well_formed", "The property as first stated (any registry) is false of the code: c44_unbounded. The hypotheses of c44_bounded, and of the theorems on well-formed registries, are shown for the Westend and Statemint metadata.")
claim("C47", "proved", "c47_blob c47_at westend_told_apart statemint_told_apart", "Address and bit-vector formats are parameters assumed to tell inputs apart; the condition on names is shown for the Westend and Statemint metadata.")
claim("C48", "proved", "c48_transaction c48_unmarked")
claim("C49", "proved", "c49_necessary c49_joined c49_one_line_each")
claim("C50", "proved", "c50_value c50_all c50_transaction c50_unmarked c50_unchecked c50_storage c50_shortened c50_westend")
claim("C51", "proved", "c51_value c51_all c51_never_misread c51_retained c51_transaction c51_unmarked c51_unchecked c51_storage c51_westend")
claim("C52", "proved", "c52_words c52_transaction_messages c52_parser_messages c52_storage_messages c52_unchecked_messages c52_metadata_messages c52_premises_met")
claim("C53", "proved", "c53_consumed_is_readable c53_storage_returns c53_storage c53_storage_refusals c53_unchecked c53_transient_panic c53_refusal_panic")

claim("C54", "proved", "c54_consumed_suffice c54_exactly_consumed c54_prefix_not_checked c54_prefix_unread")
claim("C55", "proved", "c55_names_only_label c55_whole_blob c55_storage c55_call c55_unchecked")
claim("C56", "proved", "c56_value c56_blob c56_storage c56_transaction c56_unmarked c56_unchecked")
claim("C57", "proved", "c57_notes c57_call c57_transaction c57_marked")
claim("C58", "proved", "c58_sound c58_complete c58_documented c58_unique c58_beyond c58_trimmed c58_entry c58_value_moved")
claim("C59", "proved", "c59_husk c59_husk_unique c59_husk_inside c59_signature c59_signature_unique c59_recognised c59_recognised_unique c59_pick c59_order c59_order_unique")
claim("C60", "proved", "c60_true c60_enum c60_registry c60_value c60_short c60_compact c60_cut")
claim("C61", "proved", "c61_accuses c61_accuses_all c61_registry_innocent")
claim("C62", "proved", "c62_first_fault c62_one_fault c62_no_value c62_rejected c62_exact c62_value_or_fault c62_exact_all c62_decoder")
claim("C63", "proved", "c63_transaction c63_unmarked c63_unchecked c63_storage c63_key c63_version_v14 c63_version_v15 c63_one_answer westend_usable statemint_usable acala2012_usable polkadot9430_usable polkadot15_usable", "the hypotheses are decidable; PropReal.v decides them for every registry in the tests of the repository")
claim("C64", "proved", "c64_requests c64_requests_all c64_decode c64_decode_all c64_transaction c64_transaction_unmarked c64_storage c64_unchecked c64_64bit c64_unchecked_64bit c64_32bit_wrapping c64_mark_32bit c64_transaction_32bit c64_unchecked_32bit", "the panic of an overflowing sum inside the memory is shown as an error of the memory; C11 (no panic) holds for 64-bit targets, and on 32-bit ones without overflow checks")
claim("C65", "proved", "c65_decode c65_decode_all c65_transaction c65_transaction_unmarked c65_unchecked c65_storage c65_counted c65_types c65_in_memory c65_empty_enum", "reads of the data; lookups of types are counted in C71")
claim("C66", "proved", "c66_same_call c66_decode_all c66_transaction c66_exact_extensions c66_unmarked c66_unchecked c66_storage c66_not_recognised", "readings may differ from the fault-free ones in which enums are recognised as calls, events or bare signatures (C42 shows that this happens)")
claim("C67", "proved", "c67_base58 c67_address c67_one_key c67_injective c67_one_text c67_letters c67_blake c67_formats c67_cards c67_lines c67_transaction", "the address and bit-vector texts come from other crates; addresses are checked against those in the tests of the repository")
claim("C68", "proved", "c68_levels c68_consumed c68_by_type c68_transaction c68_unmarked c68_unchecked c68_storage c68_deep c68_indents c68_call_indents c68_u32")
claim("C69", "proved", "c69_signing c69_unsigned c69_signed c69_unsigned_back c69_signed_back c69_signed_is_included c69_never_another_call")
claim("C70", "proved", "c70_value c70_all c70_transaction c70_unmarked c70_unchecked c70_storage c70_reordered c70_chain c70_entry c70_turned c70_duplicate c70_distinct_needed")
claim("C71", "proved", "c71_decode c71_decode_all c71_transaction c71_transaction_unmarked c71_unchecked c71_storage c71_counted c71_in_memory c71_westend c71_statemint c71_empty_elements c71_exponential", "lookups of types; reads of the data are counted in C65")
claim("C72", "proved", "c72_transaction c72_unchecked c72_no_params c72_either")
claim("C73", "proved", "c73_parts c73_struct c73_tuple c73_array c73_vector c73_plain_elements c73_enum c73_call_or_event c73_acyclic",
      "Arrays and vectors: for element types that can be followed to their end (peel_from), others are refused.")
claim("C74", "proved", "c74_formats c74_differ c74_transaction c74_transaction_unmarked c74_nested c74_top c74_nested_call c74_nested_event c74_count c74_count_decoded")
claim("C75", "proved", "c75_other_genesis c75_other_genesis_unmarked c75_no_genesis c75_no_genesis_unmarked c75_other_version c75_other_version_unmarked c75_name_not_checked c75_name_not_checked_unmarked")
claim("C76", "proved", "c76_transfer c76_only_transfer c76_signed_tells c76_lines_tell c76_westend c76_polkadot9430 c76_polkadot15 c76_polkadot1003003 c76_astar c76_bifrost c76_statemint",
      "For chains with the usual extensions and transfer calls (SpecTransfer.v); the seven real ones of the repository by computation.")
claim("C77", "proved", "c77_lines c77_parts c77_included c77_only_included c77_bytes_tell c77_lines_tell c77_westend c77_polkadot9430 c77_polkadot15 c77_polkadot1003003 c77_astar c77_bifrost c77_statemint",
      "Signed extrinsics with transfers on the chains of C76 (SpecIncluded.v); c77_lines and c77_parts for any metadata. c77_example is the extrinsic of the repository's own test.")
claim("C78", "proved", "c78_account c78_only_account c78_lines_tell c78_westend c78_polkadot9430 c78_polkadot15 c78_polkadot1003003 c78_astar c78_bifrost c78_statemint c78_acala2012 c78_acala2200",
      "Types, bytes and lines in SpecAccount.v. The prefix of the key is not looked at by the code, so the converse says nothing about it. c78_example: an account on Polkadot, and four damaged entries.")

claim("C79", "proved", "c79_call c79_batch c79_only_batch c79_lines_tell c79_westend c79_polkadot9430 c79_polkadot15 c79_polkadot1003003 c79_astar c79_bifrost c79_statemint",
      "Trees, bytes and lines in SpecBatch.v. c79_example: a batch within a batch on Westend, with its lines.")

claim("C80", "proved", "c80_lines c80_clock c80_only_clock c80_westend c80_polkadot9430 c80_polkadot15 c80_polkadot1003003 c80_astar c80_bifrost c80_statemint c80_acala2012 c80_acala2200",
      "Call, bytes and lines in SpecClock.v. c80_example: a time on Polkadot, evaluated, and three refused extrinsics.")
claim("C81", "proved", "c81_events c81_only_events c81_lines_tell c81_polkadot9430 c81_polkadot15 c81_polkadot1003003 c81_astar c81_bifrost c81_statemint c81_acala2012 c81_acala2200",
      "Types, bytes and lines in SpecEvents.v. c81_example: four events of a block on Polkadot, evaluated, and four refused entries.")
claim("C82", "proved", "c82_lines c82_real",
      "Any metadata (PropEntry.v); c82_case: an entry with three hashers, one of them opaque.")
claim("C83", "proved", "c83_order c83_only_order c83_bytes_tell c83_lines_tell c83_like c83_samples c83_westend westend_samples_ok c83_polkadot9430 polkadot9430_samples_ok c83_polkadot15 polkadot15_samples_ok c83_polkadot1003003 polkadot1003003_samples_ok c83_astar astar_samples_ok c83_bifrost bifrost_samples_ok c83_statemint statemint_samples_ok c83_covered c83_westend_calls c83_polkadot9430_calls c83_polkadot15_calls c83_polkadot1003003_calls c83_astar_calls c83_bifrost_calls c83_statemint_calls",
      "Any usual chain (PropOrder.v) and seven real chains (PropOrderReal.v); c83_example: a proxied multi-signature call of a batch of three calls; c83_token: a token sent to another chain; c83_scheduled: a scheduled call. PropOrderAll.v: 197 of 208, 323 of 334, 278 of 288, 301 of 318, 163 of 172, 419 of 431 and 233 of 242 calls.")
claim("C84", "proved", "c84_included c84_only_included c84_bytes_tell c84_lines_tell c84_unsigned c84_only_unsigned c84_westend c84_polkadot9430 c84_polkadot15 c84_polkadot1003003 c84_astar c84_bifrost c84_statemint",
      "Any usual chain (PropBlock.v) and seven real chains (PropBlockReal.v); c84_example: the nested call of c83_example in a signed extrinsic, and the time of a block.")
here = os.path.dirname(os.path.abspath(__file__))
out = {"claims": [C[k] for k in sorted(C)]}
json.dump(out, open(os.path.join(here, "..", "MANIFEST.json"), "w"), indent=1)
