{
 "claims": [
  {
   "property": "C01",
   "status": "proved",
   "theorems": [
    "C01_no_double_baking"
   ],
   "note": "Every history of APDUs, decisions, power cycles and flash faults that leave the page new, old after a power loss, or detectably corrupt."
  },
  {
   "property": "C02",
   "status": "proved",
   "theorems": [
    "C02_no_double_endorsing"
   ],
   "note": "As C01."
  },
  {
   "property": "C03",
   "status": "proved",
   "theorems": [
    "C03_signed_in_order",
    "C03_every_pair_in_order"
   ],
   "note": "As C01; also for any pair of signatures by whatever command."
  },
  {
   "property": "C04",
   "status": "proved",
   "theorems": [
    "C04_no_emmy_after_tenderbake"
   ],
   "note": "As C01."
  },
  {
   "property": "C05",
   "status": "proved",
   "theorems": [
    "C05_report_covers_signed",
    "C05_report_after_signature",
    "C05_report_changes",
    "C05_report_monotone",
    "C05_level_never_decreases_refuted"
   ],
   "note": "Covers, exactness after a signature, what may change the reported level, monotonicity; the unrestricted claim is refuted (Emmy to Tenderbake)."
  },
  {
   "property": "C06",
   "status": "proved",
   "theorems": [
    "C06_power_loss_safe"
   ],
   "note": "Power loss between commands and inside any flash write."
  },
  {
   "property": "C07",
   "status": "proved",
   "theorems": [
    "C07_signed_with_authorised_key",
    "C07_no_key_refused",
    "C07_other_key_refused",
    "C07_bad_key_refused"
   ],
   "note": "Cause and key of every consensus signature for every flash behaviour; refusals for no key, another key, malformed key."
  },
  {
   "property": "C08",
   "status": "proved",
   "theorems": [
    "C08_C43_accepted_messages_are_later",
    "C08_levels_signed"
   ],
   "note": "Check function and whole-device history."
  },
  {
   "property": "C09",
   "status": "proved",
   "theorems": [
    "C09_refusal_keeps_state",
    "C09_refusal_keeps_state_power_loss",
    "C09_failed_write_refuted"
   ],
   "note": "C09_refusal_keeps_state: any earlier faults, working flash during the refused event (d_faults empty). C09_refusal_keeps_state_power_loss: power losses at any write, also during the event. C09_failed_write_refuted: false if a write may report an error. The exception of the claim is stated exactly: the answer is 0x6400 and the raised watermark is the position of the offered message."
  },
  {
   "property": "C10",
   "status": "proved",
   "theorems": [
    "C10_key_changes_by_approval_only",
    "C10_approved_key_is_stored",
    "C10_review_shows_request",
    "C10_stored_key_was_approved"
   ],
   "note": "Key changes only by approval holds for every fault schedule; what is stored after an approval and where a stored key comes from exclude torn pages whose checksum is right."
  },
  {
   "property": "C11",
   "status": "proved",
   "theorems": [
    "C11_deauthorised"
   ],
   "note": "From an approved deauthorise on, for every later history without an approved key request."
  },
  {
   "property": "C12",
   "status": "proved",
   "theorems": [
    "C12_reset_sets_levels",
    "C12_short_reset_refused"
   ],
   "note": "Fault-free from the reset on; intact pages before it. The chain id default is the mainnet id written by the first RESET."
  },
  {
   "property": "C13",
   "status": "proved",
   "theorems": [
    "C13_setup_stores_request",
    "C13_C28_rejection_changes_nothing"
   ],
   "note": "The payload behind the review is part of the theorem; rejection is C13_C28_rejection_changes_nothing."
  },
  {
   "property": "C14",
   "status": "proved",
   "theorems": [
    "C14_watermark_round_trip",
    "C14_unknown_tag_is_default",
    "C14_chain_id_round_trip"
   ],
   "note": "Watermark, chain id round trips and the unknown-tag default."
  },
  {
   "property": "C15",
   "status": "proved",
   "theorems": [
    "C15_unreadable_refuses_emmy",
    "C15_unreadable_refuses_tenderbake_refuted",
    "C15_slots_hold_records",
    "C15_signs_over_readable_watermark",
    "C15_unreadable_refused"
   ],
   "note": "Proved for devices. The decoder-level claim is false of the code for Tenderbake messages and refuted; the layout invariant shows that no such payload is ever stored."
  },
  {
   "property": "C16",
   "status": "proved",
   "theorems": [
    "C16_key_round_trip",
    "C16_malformed_keys"
   ],
   "note": ""
  },
  {
   "property": "C17",
   "status": "proved",
   "theorems": [
    "C17_read_returns_last_write",
    "C17_fresh_area_is_uninitialised",
    "C17_formatted"
   ],
   "note": "Any number of pages, any history of successful writes and restarts of fewer than 2^64 operations."
  },
  {
   "property": "C18",
   "status": "proved",
   "theorems": [
    "C18_wear_is_spread"
   ],
   "note": ""
  },
  {
   "property": "C19",
   "status": "proved",
   "theorems": [
    "C19_torn_write",
    "C19_torn_page_is_permanent",
    "C19_damage_is_detected"
   ],
   "note": "Torn contents the CRC-32 detects. Finding: a detected torn page makes the area unreadable for good."
  },
  {
   "property": "C20",
   "status": "partial",
   "theorems": [
    "C20_failed_write_no_double_signing_refuted",
    "C20_failed_write_keeps_value_refuted",
    "C20_restart_recovers_last_stored_partial"
   ],
   "note": "The full claim is false of the code and refuted, with a double endorsement as device-level consequence; after a restart the last stored value is recovered."
  },
  {
   "property": "C21",
   "status": "proved",
   "theorems": [
    "C21_buffer_is_accumulator",
    "C21_refused_write_keeps_contents"
   ],
   "note": "Including failing flash writes that do not tear the flash array."
  },
  {
   "property": "C22",
   "status": "proved",
   "theorems": [
    "C22_upload_reassembles"
   ],
   "note": "Without flash faults."
  },
  {
   "property": "C23",
   "status": "proved",
   "theorems": [
    "C23_C24_upload_refines_protocol"
   ],
   "note": "Refinement of an abstract protocol machine for every trace of packets."
  },
  {
   "property": "C24",
   "status": "proved",
   "theorems": [
    "C23_C24_upload_refines_protocol"
   ],
   "note": "Same refinement; nothing is signed because the uploader hands nothing to the command."
  },
  {
   "property": "C25",
   "status": "proved",
   "theorems": [
    "C25_wrong_length",
    "C25_other_class",
    "C25_unassigned_instruction",
    "C25_answers_end_with_status",
    "C25_commands_are_answered"
   ],
   "note": "Device level, both builds; ADied (panic) is the only other outcome of a command, see C44."
  },
  {
   "property": "C26",
   "status": "proved",
   "theorems": [
    "C26_wallet_refuses_baking",
    "C26_wallet_writes_no_slot",
    "C26_wallet_signs_by_approval",
    "C26_baking_refuses_unsafe"
   ],
   "note": "Both flavours; slot pages of a wallet never change whatever the faults of the flash."
  },
  {
   "property": "C27",
   "status": "partial",
   "theorems": [
    "C27_payload_inside_apdu_refuted",
    "C27_consistent_payload_partial"
   ],
   "note": "The full claim is false of the code and refuted; proved for consistent length bytes."
  },
  {
   "property": "C28",
   "status": "proved",
   "theorems": [
    "C13_C28_rejection_changes_nothing",
    "C28_signature_covers_upload",
    "C28_approval_answers_signature"
   ],
   "note": "For working upload-buffer flash: with a failing init write the upload protocol itself breaks (finding). Slot faults arbitrary."
  },
  {
   "property": "C29",
   "status": "proved",
   "theorems": [
    "C29_reviewed_not_consensus",
    "C29_consensus_refused",
    "C29_consensus_never_reviewed"
   ],
   "note": ""
  },
  {
   "property": "C30",
   "status": "proved",
   "theorems": [
    "C30_path_read_exact",
    "C30_path_round_trip",
    "C30_new_panics_when_overlong"
   ],
   "note": "Finding: BIP32Path::new panics on every overlong path."
  },
  {
   "property": "C31",
   "status": "proved",
   "theorems": [
    "C31_consumes_one_encoding",
    "C31_exact_or_refused",
    "C31_naturals_round_trip",
    "C31_integers_round_trip",
    "C31_device_refuses_from_2_28"
   ],
   "note": "Finding: amounts of 2^28 mutez and above cannot be read into the device's 32-bit usize."
  },
  {
   "property": "C32",
   "status": "proved",
   "theorems": [
    "C32_operations_decode"
   ],
   "note": "All 13 kinds, including the anonymous ones (of which the app keeps nothing)."
  },
  {
   "property": "C33",
   "status": "proved",
   "theorems": [
    "C33_batches_decode",
    "C33_every_step_advances",
    "C33_iteration_ends"
   ],
   "note": ""
  },
  {
   "property": "C34",
   "status": "proved",
   "theorems": [
    "C34_review_shows_the_sheet",
    "C34_rows_of_a_review",
    "C34_sheet_of_a_batch",
    "C34_large_numbers_refuted",
    "C34_256_rows_refuted",
    "C34_253_proposals_refuted",
    "C34_anonymous_refuted"
   ],
   "note": "Proved for every reviewable pending view with fewer than 256 rows; the exceptions (256 rows, 253 proposals, anonymous operations, numbers from 2^28) are the _refuted theorems."
  },
  {
   "property": "C35",
   "status": "proved",
   "theorems": [
    "C35_pages_show_the_text",
    "C35_each_page",
    "C35_pages_past_the_end",
    "C35_announced_pages",
    "C35_multiple_refuted"
   ],
   "note": "Proved with the exact exceptions stated: exact multiples of the screen and 256 pages or more are refuted cases."
  },
  {
   "property": "C36",
   "status": "proved",
   "theorems": [
    "C36_fixed_point",
    "C36_amounts",
    "C36_small_buffers",
    "C36_full_buffers",
    "C36_letters",
    "C36_amounts_differ",
    "C36_zeros_refuted",
    "C36_zeros_not_numbers_refuted"
   ],
   "note": "Proved for every digit string that is not several zeros; those are a refuted case that no number produces."
  },
  {
   "property": "C37",
   "status": "proved",
   "theorems": [
    "C37_in_range",
    "C37_decisions",
    "C37_both_on_information",
    "C37_reachable",
    "C37_navigation",
    "C37_long_review_refuted"
   ],
   "note": "Proved over all input sequences for both screen types, composed with the device model; every page and approval are reachable if all rows can be shown and there are fewer than 256. The exception for 256 rows on the Nano X is C37_long_review_refuted."
  },
  {
   "property": "C38",
   "status": "proved",
   "theorems": [
    "C38_search_sorted_table",
    "C38_lookup_is_registered",
    "C38_lookup_exact",
    "C38_known_bakers",
    "C38_known_bakers_exact",
    "C38_two_names_refuted"
   ],
   "note": "Proved for every sorted table and every registry; the built-in registry is transcribed and checked. One address has two names (refuted case)."
  },
  {
   "property": "C39",
   "status": "proved",
   "theorems": [
    "C39_addresses_are_texts",
    "C39_key_addresses",
    "C39_key_addresses_never_panic",
    "C39_contracts_are_texts",
    "C39_branches_are_texts",
    "C39_proposals_are_texts",
    "C39_public_keys_are_texts",
    "C39_chains_are_texts",
    "C39_unknown_operations_are_texts",
    "C39_texts_read_back",
    "C39_texts_identify",
    "C39_chain_aliases_identify"
   ],
   "note": "Proved for arbitrary hash oracles of the right output size; base58 read back by an independent positional reading."
  },
  {
   "property": "C40",
   "status": "proved",
   "theorems": [
    "C40_public_key_answer",
    "C40_address_answer",
    "C40_reviewed_key_answer",
    "C40_bad_curve_refused",
    "C40_bad_path_refused",
    "C40_authorise_answer",
    "C40_query_answer",
    "C40_query_approval"
   ],
   "note": "Answers of every request for a key, both builds."
  },
  {
   "property": "C41",
   "status": "proved",
   "theorems": [
    "C41_status_words",
    "C41_short_words_panic"
   ],
   "note": "Finding: decoding a slice shorter than two bytes panics."
  },
  {
   "property": "C42",
   "status": "proved",
   "theorems": [
    "C42_lock_is_exclusive"
   ],
   "note": ""
  },
  {
   "property": "C43",
   "status": "proved",
   "theorems": [
    "C43_emmy_blocks_decode",
    "C43_tenderbake_blocks_decode",
    "C43_emmy_endorsements_decode",
    "C43_tenderbake_endorsements_decode",
    "C43_emmy_blocks_checked",
    "C43_tenderbake_blocks_checked",
    "C43_emmy_endorsements_checked",
    "C43_tenderbake_endorsements_checked",
    "C43_magic_byte_agrees",
    "C08_C43_accepted_messages_are_later"
   ],
   "note": "Decoding and checking of every protocol encoding, and for arbitrary bytes that accepted messages carry the position and kind read off by offset."
  },
  {
   "property": "C44",
   "status": "partial",
   "theorems": [
    "C44_panics_exactly_on_short_fitness",
    "C44_no_crash_refuted"
   ],
   "note": "The full claim is false of the code and refuted; the panicking inputs are characterised exactly."
  },
  {
   "property": "C45",
   "status": "proved",
   "theorems": [
    "C45_decoding_total_and_local"
   ],
   "note": ""
  },
  {
   "property": "C46",
   "status": "partial",
   "theorems": [
    "C46_decoding_injective_partial",
    "C46_decoding_injective_refuted",
    "C46_padded_numbers_refuted"
   ],
   "note": "The full claim is false of the code and refuted; proved for protocol encodings without anonymous operations."
  },
  {
   "property": "C47",
   "status": "proved",
   "theorems": [
    "C47_approved_was_shown",
    "C47_signed_batch_was_shown",
    "C47_signed_rows_were_shown",
    "C47_signed_michelson_was_shown",
    "C47_baking_first_operation_was_shown",
    "C47_baking_batch_refuted",
    "C47_256_rows_refuted",
    "C47_253_proposals_refuted",
    "C47_expert_mode_refuted"
   ],
   "note": "Proved for fewer than 256 rows with expert mode off; the wallet shows the whole batch, the baking app only its first operation. The exceptions are the _refuted theorems."
  },
  {
   "property": "C48",
   "status": "proved",
   "theorems": [
    "C48_history"
   ],
   "note": "The screen model is rust/zemu ui_toolkit with the C views; the SDK flow engine is trusted."
  },
  {
   "property": "C49",
   "status": "proved",
   "theorems": [
    "C49_review_served"
   ],
   "note": ""
  },
  {
   "property": "C50",
   "status": "proved",
   "theorems": [
    "C50_consensus_served"
   ],
   "note": ""
  },
  {
   "property": "C51",
   "status": "proved",
   "theorems": [
    "C51_operation_served"
   ],
   "note": "For a single operation; a batch is accepted on its first operation alone, see C47_baking_batch_refuted."
  },
  {
   "property": "C52",
   "status": "proved",
   "theorems": [
    "C52_authorise_served",
    "C52_deauthorise_served",
    "C52_setup_served"
   ],
   "note": ""
  },
  {
   "property": "C53",
   "status": "proved",
   "theorems": [
    "C53_hmac_served",
    "C53_versions"
   ],
   "note": ""
  },
  {
   "property": "C54",
   "status": "proved",
   "theorems": [
    "C54_paths_serialised",
    "C54_only_paths",
    "C54_other_lengths_refused"
   ],
   "note": "Numbers are read by the JavaScript runtime; assumed is that decimal numerals below 2^53 are read as their value."
  },
  {
   "property": "C55",
   "status": "proved",
   "theorems": [
    "C55_chunks"
   ],
   "note": ""
  },
  {
   "property": "C56",
   "status": "proved",
   "theorems": [
    "C56_wallet_calls",
    "C56_legacy_sign_refuted"
   ],
   "note": "legacySign does not meet the claim (C56_legacy_sign_refuted). The status of the first packet is not examined by the code; the theorem covers it since the device accepts that packet."
  },
  {
   "property": "C57",
   "status": "proved",
   "theorems": [
    "C57_baker_consensus",
    "C57_baker_operation",
    "C57_C61_legacy_consensus"
   ],
   "note": ""
  },
  {
   "property": "C58",
   "status": "proved",
   "theorems": [
    "C58_addresses",
    "C58_legacy_get_refuted",
    "C58_legacy_prompt_refuted"
   ],
   "note": "The legacy calls do not meet the claim (C58_legacy_get_refuted, C58_legacy_prompt_refuted)."
  },
  {
   "property": "C59",
   "status": "proved",
   "theorems": [
    "C59_reset",
    "C59_setup"
   ],
   "note": ""
  },
  {
   "property": "C60",
   "status": "proved",
   "theorems": [
    "C60_authorise",
    "C60_deauthorise",
    "C60_hmac",
    "C60_versions",
    "C60_codes_described",
    "C60_confirmed_query"
   ],
   "note": ""
  },
  {
   "property": "C61",
   "status": "proved",
   "theorems": [
    "C61_sig_hash",
    "C61_tenderbake_refuted",
    "C57_C61_legacy_consensus"
   ],
   "note": "Holds for operations and Michelson data; C61_tenderbake_refuted for Tenderbake."
  },
  {
   "property": "C62",
   "status": "proved",
   "theorems": [
    "C62_same_screens_same_request",
    "C62_same_screens_alike_messages",
    "C62_same_screens_same_message",
    "C62_known_namesakes",
    "C62_unseen_differences_refuted",
    "C62_entrypoints_refuted",
    "C62_namesakes_refuted",
    "C62_inner_signatures_refuted"
   ],
   "note": "Proved with the exceptions stated, each with a theorem that it is one (\u2026_refuted). Reviews of 256 rows or more are treated in C34."
  },
  {
   "property": "C63",
   "status": "proved",
   "theorems": [
    "C63_answers",
    "C63_screens",
    "C63_wallet_without_approval"
   ],
   "note": "Two-run (non-interference) theorem on the event-level and on the button-level device; the log records every use of the signing oracle whose result can leave the device."
  },
  {
   "property": "C64",
   "status": "proved",
   "theorems": [
    "C64_stops_exactly",
    "C64_stop_causes",
    "C64_short_fitness_stops"
   ],
   "note": "Exact characterisation of the answer ADied; the panic on short fitness is a finding (see also C44). Flash of the upload buffer is assumed not to fail."
  },
  {
   "property": "C65",
   "status": "proved",
   "theorems": [
    "C65_signature_covers_accepted",
    "C65_damaged_buffer_refuted"
   ],
   "note": "Error reports that leave the upload buffer damaged are excluded; C65_damaged_buffer_refuted shows why."
  },
  {
   "property": "C66",
   "status": "proved",
   "theorems": [
    "C66_slots_known",
    "C66_interrupted",
    "C66_plan_unique",
    "C66_completed",
    "C66_atomic_refuted"
   ],
   "note": "Writes that report an error instead of a power loss are excluded (see C20). C66_atomic_refuted: a set-up can stay half done."
  },
  {
   "property": "C67",
   "status": "proved",
   "theorems": [
    "C67_same_memory_same_answers",
    "C67_restart_unobservable",
    "C67_during_upload_refuted",
    "C67_during_review_refuted"
   ],
   "note": "Bisimulation between reachable devices, under power losses during slot writes. The schedules of future flash faults are part of the compared state, as they are inputs of the model. The two refuted statements show that neither condition of the restart theorem can be dropped."
  },
  {
   "property": "C68",
   "status": "proved",
   "theorems": [
    "C68_app_is_ideal"
   ],
   "note": "Simulation, state by state, between the device model and the ideal app of IdealSpec.v. Of the model the ideal app uses only types, the address text and the operation parser, each of which has its own properties."
  },
  {
   "property": "C69",
   "status": "proved",
   "theorems": [
    "C69_shown_key_signs",
    "C69_keys_and_signatures",
    "C69_device_keys",
    "C69_keys_apart",
    "C69_element_is_oracle",
    "C69_odd_marked_refuted"
   ],
   "note": "The element is a record of functions for the system calls (keys, hashes), each of which may fail. An odd ordinate reported together with CX_ECCINFO_xGTn is not marked (C69_odd_marked_refuted)."
  },
  {
   "property": "C70",
   "status": "partial",
   "theorems": [
    "C70_erased_after_use_partial",
    "C70_pair_failure_refuted",
    "C70_derive_failure_refuted"
   ],
   "note": "The full claim is false of the code: if the public key cannot be computed the `?` skips the erasure (C70_pair_failure_refuted), and a failing derivation leaves what it has written (C70_derive_failure_refuted). Proved for every key that could be derived: erased after signing on every outcome, and after its public key was computed. Copies made by moves are not modelled."
  },
  {
   "property": "C71",
   "status": "proved",
   "theorems": [
    "C71_hash_of_whole",
    "C71_cut_anywhere",
    "C71_addresses",
    "C71_keyed_hash"
   ],
   "note": "Hash functions are arbitrary; the element is assumed to absorb input as a stream (record `hashes`)."
  },
  {
   "property": "C72",
   "status": "partial",
   "theorems": [
    "C72_catch_partial",
    "C72_catch_any_code",
    "C72_error_roundtrip",
    "C72_error_kind",
    "C72_cx_code_refuted",
    "C72_low_half_zero_refuted"
   ],
   "note": "The full claim is false: codes are cut to 16 bits (C72_cx_code_refuted), and a code with low half 0 restarts the closure (C72_low_half_zero_refuted). C72_catch_partial proves it for all programs whose codes fit 16 bits and are not 0; C72_catch_any_code says what happens for all others."
  },
  {
   "property": "C73",
   "status": "proved",
   "theorems": [
    "C73_alternation",
    "C73_wire_is_run",
    "C73_review_blocks"
   ],
   "note": "Stated for runs in which the SDK itself does not throw while the app waits and the initialisation does not fail (see C74 for these)."
  },
  {
   "property": "C74",
   "status": "partial",
   "theorems": [
    "C74_exception_answer",
    "C74_unsolicited_refuted",
    "C74_init_failures_partial",
    "C74_init_overflow_refuted"
   ],
   "note": "The full claim is false: see C74_unsolicited_refuted and C74_init_overflow_refuted. Proved: the answer to an exception during a command, and what failing initialisations leave behind, for any number up to 130."
  },
  {
   "property": "C75",
   "status": "partial",
   "theorems": [
    "C75_app_info_partial",
    "C75_app_info_failure",
    "C75_no_flags_refuted",
    "C75_format_refuted"
   ],
   "note": "The full claim is false for an empty field of flags and for other formats (C75_no_flags_refuted, C75_format_refuted); proved for format 1 with at least one byte of flags."
  },
  {
   "property": "C76",
   "status": "partial",
   "theorems": [
    "C76_answers_partial",
    "C76_codes_refuted",
    "C76_unused_codes",
    "C76_unsafe_refuted"
   ],
   "note": "The form of every answer and the set of return codes that are sent are proved. Two parts of the claim are false of the code and refuted: five return codes that are sent are not documented (and four documented ones never occur), and instruction 5 hashes its data like instruction 4."
  },
  {
   "property": "C77",
   "status": "partial",
   "theorems": [
    "C77_conversation_partial",
    "C77_first_answer_refuted"
   ],
   "note": "The full claim is false for the first packet: its answer is not examined (C77_first_answer_refuted). Proved for all further packets, against an arbitrary transport."
  },
  {
   "property": "C78",
   "status": "proved",
   "theorems": [
    "C78_dev_hash"
   ],
   "note": ""
  },
  {
   "property": "C79",
   "status": "proved",
   "theorems": [
    "C79_blind_signature",
    "C79_blind_only_approved",
    "C79_blind_screen_s",
    "C79_blind_screen_x"
   ],
   "note": "The key in the record is the one named in the request (C79_blind_signature); C79_blind_only_approved covers all histories."
  },
  {
   "property": "C80",
   "status": "proved",
   "theorems": [
    "C80_ordinary_histories",
    "C80_developers_leave_alone",
    "C80_app_refuses_others",
    "C80_consensus_order",
    "C80_blind_conflict_refuted"
   ],
   "note": "False of blind signatures themselves, which pass the watermarks: C80_blind_conflict_refuted."
  },
  {
   "property": "C81",
   "status": "proved",
   "theorems": [
    "C81_echo",
    "C81_echo_too_long",
    "C81_echo_short_refuted",
    "C81_debug",
    "C81_debug_stale_refuted",
    "C81_debug_cut_refuted"
   ],
   "note": "Outside of the stated cases it is false of the code: C81_echo_short_refuted, C81_debug_stale_refuted, C81_debug_cut_refuted."
  },
  {
   "property": "C82",
   "status": "proved",
   "theorems": [
    "C82_except_caught",
    "C82_except_uncaught",
    "C82_except_zero_refuted"
   ],
   "note": "Code 0 comes back as 1: C82_except_zero_refuted."
  },
  {
   "property": "C83",
   "status": "proved",
   "theorems": [
    "C83_version_exact"
   ],
   "note": "The file is taken to be ASCII; names that are keywords are not modelled."
  },
  {
   "property": "C84",
   "status": "proved",
   "theorems": [
    "C84_static_exact",
    "C84_static_zero",
    "C84_slots",
    "C84_write_exact"
   ],
   "note": ""
  },
  {
   "property": "C85",
   "status": "proved",
   "theorems": [
    "C85_lazy_is_eager",
    "C85_garbage_refuted",
    "C85_wear_static"
   ],
   "note": "That RAM is cleared before the app starts is an assumption; without it the claim is false (C85_garbage_refuted)."
  },
  {
   "property": "C86",
   "status": "proved",
   "theorems": [
    "C86_by_hand",
    "C86_wallet_by_hand",
    "C86_operation_by_hand",
    "C86_authorise_by_hand",
    "C86_setup_by_hand",
    "C86_address_by_hand"
   ],
   "note": "End to end composition of the theorems about uploads and requests (C49-C53) with those about navigation and screens; signing on wallets, delegations and reveals of bakers, authorisation, set-up and addresses."
  },
  {
   "property": "C87",
   "status": "proved",
   "theorems": [
    "C87_wallet_call",
    "C87_delegation_call",
    "C87_authorise_call",
    "C87_address_call",
    "C87_setup_call",
    "C87_hands_decide",
    "C87_needs_both"
   ],
   "note": "The answer of a rejected call and of a call nobody decides are part of the statements; a transport that waits for ever is modelled as one that gives up."
  },
  {
   "property": "C88",
   "status": "proved",
   "theorems": [
    "C88_returned_signature",
    "C88_session_in_order",
    "C88_returned_in_hand",
    "C88_hand_in_order"
   ],
   "note": "legacySign returns no hash and is covered by C73 and C87; a torn upload page is excluded as in C65 (finding in DESIGN.md). Views that fit are assumed to leave 134 bytes for the answer."
  },
  {
   "property": "C89",
   "status": "proved",
   "theorems": [
    "C89_review_reads_upload",
    "C89_bytes_in_place",
    "C89_signed_from_place",
    "C89_in_hand",
    "C89_ungated_refuted"
   ],
   "note": "Rests on the system keeping commands from the app while an answer is outstanding; C89_ungated_refuted shows that without this a host could show one transfer and have another signed. The first operation of a baking review is decoded again from its bytes instead of following each slice."
  },
  {
   "property": "C90",
   "status": "proved",
   "theorems": [
    "C90_test_build",
    "C90_no_room_refuted"
   ],
   "note": "Needs room for every review (roomy C 134); C90_no_room_refuted shows the difference without it. The test build is taken with release arithmetic."
  },
  {
   "property": "C91",
   "status": "proved",
   "theorems": [
    "C91_driven",
    "C91_passing_vector",
    "C91_unmentioned_refuted",
    "C91_unchecked_refuted",
    "C91_every_page"
   ],
   "note": "What a vector leaves unchecked is stated in the _refuted theorems."
  },
  {
   "property": "C92",
   "status": "proved",
   "theorems": [
    "C92_operations_target",
    "C92_apdu_target",
    "C92_wallet_never_crashes",
    "C92_one_input"
   ],
   "note": "Release arithmetic. The target of the commands is taken with the display of the unit tests, since the call it makes to set one does not exist any more. The crash needs an authorisation and a stored watermark, hence earlier inputs."
  },
  {
   "property": "C93",
   "status": "proved",
   "theorems": [
    "C93_test_flow"
   ],
   "note": "The types of ledger_apdu are taken as header, length byte, data, and an answer ending in the status word. Flash without faults, as in the test build."
  },
  {
   "property": "C94",
   "status": "proved",
   "theorems": [
    "C94_messages",
    "C94_throws",
    "C94_round_zero_refuted",
    "C94_test",
    "C94_exception",
    "C94_suite",
    "C94_rounds_untested"
   ],
   "note": "The numbers are integers. The clicks that approve the authorisation are an approval; C87 has the buttons. Flash without faults, as in the emulator."
  },
  {
   "property": "C95",
   "status": "proved",
   "theorems": [
    "C95_arrows",
    "C95_called",
    "C95_tests",
    "C95_verified_refuted"
   ],
   "note": "The pictures the tests compare with are left out, and so are the pages into which the system of the Nano X divides a text by itself. The cases run the tests' own data and give the numbers of presses the tests state."
  },
  {
   "property": "C96",
   "status": "proved",
   "theorems": [
    "C96_generated",
    "C96_decisive",
    "C96_amounts",
    "C96_amounts_refuted",
    "C96_variety",
    "C96_delegations",
    "C96_needed"
   ],
   "note": "The generators are modelled without their calls of the node: what it forges is the protocol's encoding of what it is asked for, what it estimates is arbitrary. The generator of seed nonces writes no expected pages and is left out. C96_amounts_refuted shows that the bound of C96_amounts is the true one."
  },
  {
   "property": "C97",
   "status": "proved",
   "theorems": [
    "C97_letters",
    "C97_shown",
    "C97_library",
    "C97_told_apart"
   ],
   "note": "The letters and lengths are those of the documentation of Tezos; hashes are arbitrary."
  },
  {
   "property": "C98",
   "status": "proved",
   "theorems": [
    "C98_passes",
    "C98_says",
    "C98_path_refuted",
    "C98_legacy",
    "C98_legacy_refuted",
    "C98_versions",
    "C98_versions_say"
   ],
   "note": "Printing and error messages are left out. C98_path_refuted and C98_legacy_refuted show what passing does not say."
  },
  {
   "property": "C99",
   "status": "proved",
   "theorems": [
    "C99_signed_fits",
    "C99_large_never",
    "C99_fitting_signed"
   ],
   "note": "Proved from the invariant of the swapping buffer and the origin of every signature, without any assumption about the flash."
  },
  {
   "property": "C100",
   "status": "proved",
   "theorems": [
    "C100_except",
    "C100_exception_tests",
    "C100_hash_refuted",
    "C100_hash_test_refuted",
    "C100_hash_says_refuted",
    "C100_hash_packets",
    "C100_display",
    "C100_display_long",
    "C100_display_short",
    "C100_display_too_long",
    "C100_echo",
    "C100_blind"
   ],
   "note": "The claim that getHash returns the hash is false: C100_hash_refuted, C100_hash_test_refuted, C100_hash_says_refuted."
  },
  {
   "property": "C101",
   "status": "proved",
   "theorems": [
    "C101_all",
    "C101_number",
    "C101_once",
    "C101_order"
   ],
   "note": "The elements have one type in the model."
  }
 ]
}