{
 "claims": [
  {
   "property": "C01",
   "status": "proved",
   "theorems": [
    "C01_to_partial_reveals",
    "C01_to_partial_hides",
    "C01_to_partial_panics_iff_out_of_bounds"
   ],
   "note": ""
  },
  {
   "property": "C02",
   "status": "proved",
   "theorems": [
    "C02_compression_lossless",
    "C02_compression_exact"
   ],
   "note": ""
  },
  {
   "property": "C03",
   "status": "proved",
   "theorems": [
    "C03_untrusted_compressed"
   ],
   "note": ""
  },
  {
   "property": "C04",
   "status": "proved",
   "theorems": [
    "C04_get",
    "C04_bytes_at_deterministic",
    "C04_copy_back"
   ],
   "note": ""
  },
  {
   "property": "C05",
   "status": "proved",
   "theorems": [
    "C05_union",
    "C05_union_index",
    "C05_idempotent",
    "C05_commutative",
    "C05_associative",
    "C05_length_mismatch_panics",
    "C05_union_subsequence"
   ],
   "note": ""
  },
  {
   "property": "C06",
   "status": "proved",
   "theorems": [
    "C06_set_unauthed",
    "C06_set_unauthed_range",
    "C06_is_complete",
    "C06_never_becomes_complete",
    "C06_range_never_becomes_complete"
   ],
   "note": ""
  },
  {
   "property": "C07",
   "status": "proved",
   "theorems": [
    "C07_indices_in_bounds",
    "C07_entries_are_accepted_calls",
    "C07_no_duplicates",
    "C07_rejected_call",
    "C07_request_lists_configuration"
   ],
   "note": ""
  },
  {
   "property": "C08",
   "status": "proved",
   "theorems": [
    "C08_reveal_iff_committed",
    "C08_proof_reveals_union_of_calls",
    "C08_cover_spec_satisfiable"
   ],
   "note": ""
  },
  {
   "property": "C09",
   "status": "proved",
   "theorems": [
    "C09_proof_soundness"
   ],
   "note": ""
  },
  {
   "property": "C10",
   "status": "proved",
   "theorems": [
    "C10_verify_iff"
   ],
   "note": ""
  },
  {
   "property": "C11",
   "status": "proved",
   "theorems": [
    "C11_honest_proofs_verify"
   ],
   "note": ""
  },
  {
   "property": "C12",
   "status": "partial",
   "theorems": [
    "C12_reveal_success_refuted",
    "C12_single_kind_reveal_succeeds_partial",
    "C12_kinds_are_tried_in_order",
    "C12_one_algorithm_reveal_succeeds",
    "C12_build_never_panics"
   ],
   "note": "Refuted as stated: when commitments of a preferred hash kind cover part of the query, mixed kinds can leave a coverable query uncovered. Proved for queries that are unions of one kind with no preferred kind present."
  },
  {
   "property": "C13",
   "status": "proved",
   "theorems": [
    "C13_root_exists_for_every_tree",
    "C13_valid_requests_are_answered",
    "C13_other_requests_are_refused",
    "C13_proofs_verify"
   ],
   "note": ""
  },
  {
   "property": "C14",
   "status": "partial",
   "theorems": [
    "C14_claims_are_leaves_partial",
    "C14_repeated_index_rejected",
    "C14_empty_claim_rejected",
    "C14_promoted_leaf_can_be_opened_refuted",
    "C14_out_of_range_claim_refuted"
   ],
   "note": "Refuted as stated: the last leaf of an odd layer is passed up unhashed and leaves and nodes share one hash domain, so a leaf that is the hash of a chosen string can be opened at an out-of-range index. Proved when claimed indices are below the leaf count and leaves have hash length."
  },
  {
   "property": "C15",
   "status": "proved",
   "theorems": [
    "C15_built_bodies_are_numbered",
    "C15_root_binds_body"
   ],
   "note": ""
  },
  {
   "property": "C16",
   "status": "partial",
   "theorems": [
    "C16_presentation_checks",
    "C16_presented_fields_are_attested_partial",
    "C16_commitment_forgery_refuted",
    "C16_forged_transcript_refuted",
    "C16_verification_never_panics"
   ],
   "note": "Field binding refuted as stated (Merkle promotion, unauthenticated leaf count): a prover can replace an attested transcript commitment. Proved when the Merkle proof states the true field count and identifiers are below it; all other checks proved in full."
  },
  {
   "property": "C17",
   "status": "proved",
   "theorems": [
    "C17_honest_presentations_verify"
   ],
   "note": ""
  },
  {
   "property": "C18",
   "status": "partial",
   "theorems": [
    "C18_validate_iff",
    "C18_validate_never_panics",
    "C18_body_can_be_replaced_refuted",
    "C18_unsigned_body_validates_refuted",
    "C18_validated_attestation_panics_refuted"
   ],
   "note": "Exact characterisation of validate proved; the clause that the body is the signed one is refuted: validate never compares the body with the signed root."
  },
  {
   "property": "C19",
   "status": "proved",
   "theorems": [
    "C19_handshake_verify_iff",
    "C19_identity_verify_iff",
    "C19_opening_is_the_committed_one"
   ],
   "note": ""
  },
  {
   "property": "C20",
   "status": "proved",
   "theorems": [
    "C20_reserved_identifiers_refused",
    "C20_last_registered_wins",
    "C20_builtins_are_kept"
   ],
   "note": ""
  },
  {
   "property": "C21",
   "status": "proved",
   "theorems": [
    "C21_records_reproduce_the_stream"
   ],
   "note": ""
  },
  {
   "property": "C22",
   "status": "proved",
   "theorems": [
    "C22_transcripts_are_well_sequenced",
    "C22_fields_are_present",
    "C22_good_input_is_accepted",
    "C22_build_panics_only_without_records",
    "C22_accessors_never_panic"
   ],
   "note": ""
  },
  {
   "property": "C23",
   "status": "partial",
   "theorems": [
    "C23_finished_hashes",
    "C23_session_hash_partial",
    "C23_session_hash_covers_ticket_refuted"
   ],
   "note": "The finished hashes are right for every full handshake. The session hash is right only without a NewSessionTicket; with one, the ticket is hashed too (refuted)."
  },
  {
   "property": "C24",
   "status": "proved",
   "theorems": [
    "C24_transcript_is_the_application_data",
    "C24_error_names_the_first_unknown_record",
    "C24_never_panics"
   ],
   "note": ""
  },
  {
   "property": "C25",
   "status": "proved",
   "theorems": [
    "C25_integer_round_trip",
    "C25_payload_round_trip",
    "C25_payload_too_long",
    "C25_vector_round_trip",
    "C25_readers_consume_a_prefix",
    "C25_decoding_is_canonical",
    "C25_vector_decoding_is_exact",
    "C25_vector_limit",
    "C25_vector_decoding_ends"
   ],
   "note": ""
  },
  {
   "property": "C26",
   "status": "proved",
   "theorems": [
    "C26_record_round_trip",
    "C26_accepted_iff_well_formed",
    "C26_proper_prefix_asks_for_more",
    "C26_error_meaning",
    "C26_empty_records_rejected",
    "C26_oversized_records_rejected",
    "C26_unknown_types_rejected"
   ],
   "note": ""
  },
  {
   "property": "C27",
   "status": "partial",
   "theorems": [
    "C27_only_major_version_3_refuted",
    "C27_other_versions_rejected_partial"
   ],
   "note": "Refuted for record versions (SSLv2/DTLS values are accepted); proved for the rest."
  },
  {
   "property": "C28",
   "status": "proved",
   "theorems": [
    "C28_frames_are_those_of_the_stream",
    "C28_stream_determines_contents",
    "C28_independent_of_reads",
    "C28_reads_succeed",
    "C28_buffer_has_room"
   ],
   "note": ""
  },
  {
   "property": "C29",
   "status": "proved",
   "theorems": [
    "C29_fragments",
    "C29_borrowed_fragments",
    "C29_limit_configuration",
    "C29_packets_fit"
   ],
   "note": ""
  },
  {
   "property": "C30",
   "status": "proved",
   "theorems": [
    "C30_messages_are_those_of_the_stream",
    "C30_stream_determines_messages",
    "C30_good_streams_accepted",
    "C30_independent_of_fragmentation",
    "C30_empty_on_boundaries"
   ],
   "note": ""
  },
  {
   "property": "C31",
   "status": "proved",
   "theorems": [
    "C31_lookup_returns_the_recorded_bytes",
    "C31_indexing_keeps_the_bytes"
   ],
   "note": ""
  },
  {
   "property": "C32",
   "status": "proved",
   "theorems": [
    "C32_positions_get_their_keystream_bytes"
   ],
   "note": ""
  },
  {
   "property": "C33",
   "status": "proved",
   "theorems": [
    "C33_exactly_the_decryption_is_accepted",
    "C33_true_plaintext_is_accepted"
   ],
   "note": ""
  },
  {
   "property": "C34",
   "status": "partial",
   "theorems": [
    "C34_request_panics_the_verifier_refuted",
    "C34_other_requests_do_not_panic_partial"
   ],
   "note": "False of the code: a request that reveals all bytes of a direction and commits to an index after its end panics the verifier (auth.rs:113, slicing the plaintext). Proved: that is the only way a request can panic it."
  },
  {
   "property": "C35",
   "status": "proved",
   "theorems": [
    "C35_output_is_the_requested_disclosure",
    "C35_honest_prover_is_accepted"
   ],
   "note": ""
  },
  {
   "property": "C36",
   "status": "proved",
   "theorems": [
    "C36_all_tags_are_checked",
    "C36_check_does_not_panic",
    "C36_ghash_input_is_unambiguous",
    "C36_records_have_distinct_inputs"
   ],
   "note": ""
  },
  {
   "property": "C37",
   "status": "proved",
   "theorems": [
    "C37_nonces_are_unique",
    "C37_log_is_in_sequence",
    "C37_numbers_are_consecutive"
   ],
   "note": ""
  },
  {
   "property": "C38",
   "status": "partial",
   "theorems": [
    "C38_received_within_limit",
    "C38_buffers_are_bounded",
    "C38_accepted_within_limit_partial",
    "C38_sent_within_limit",
    "C38_handed_within_blocks",
    "C38_refuted"
   ],
   "note": "Received data, buffers and everything handed out or logged are proved to be within limits for all histories. That accepted lengths stay within the sent limit is proved with overflow checks or lengths up to 2^63; without overflow checks a length of 2^64-1 wraps around (C38_refuted), with them it panics."
  },
  {
   "property": "C39",
   "status": "proved",
   "theorems": [
    "C39_application_data_is_withheld",
    "C39_records_come_out_in_order"
   ],
   "note": ""
  },
  {
   "property": "C40",
   "status": "proved",
   "theorems": [
    "C40_log_is_complete",
    "C40_leader_tags_are_right",
    "C40_handed_records_are_logged",
    "C40_leader_has_the_tags",
    "C40_logs_agree"
   ],
   "note": ""
  },
  {
   "property": "C41",
   "status": "partial",
   "theorems": [
    "C41_traffic_is_encrypted_partial",
    "C41_spare_bytes_suffice_partial",
    "C41_refuted",
    "C41_empty_record_refuted"
   ],
   "note": "Refuted: every record is padded to whole blocks while the allocation is rounded up once, and empty records always fail. Proved for traffic that fits after rounding every record up."
  },
  {
   "property": "C42",
   "status": "proved",
   "theorems": [
    "C42_split_is_exact",
    "C42_fails_exactly_if_short",
    "C42_fails_or_splits",
    "C42_outgoing_records_split"
   ],
   "note": ""
  },
  {
   "property": "C43",
   "status": "partial",
   "theorems": [
    "C43_check_accepts_partial",
    "C43_proper_endings_are_accepted",
    "C43_transcript_check_accepts_exactly",
    "C43_transcript_check_does_not_panic",
    "C43_nothing_after_the_handshake_refuted"
   ],
   "note": "Which endings are accepted is characterised exactly, but two things differ from the property: bytes after a close_notify message are ignored (C43_check_accepts_partial), and a direction in which nothing follows the handshake is refused, because the list always contains the Finished record (C43_nothing_after_the_handshake_refuted)."
  },
  {
   "property": "C44",
   "status": "proved",
   "theorems": [
    "C44_shares_add_up",
    "C44_follower_share_is_masked",
    "C44_leader_share_is_masked",
    "C44_who_gets_the_plaintext",
    "C44_pad_must_suffice",
    "C44_pad_is_used_once",
    "C44_follower_learns_nothing"
   ],
   "note": ""
  },
  {
   "property": "C45",
   "status": "proved",
   "theorems": [
    "C45_multiplication_is_nist",
    "C45_shares_of_all_powers",
    "C45_tag_shares_add_up",
    "C45_longer_inputs_are_refused",
    "C45_leader_tags_are_gcm_tags",
    "C45_leader_accepts_the_shifted_tags",
    "C45_missing_shares_are_refused"
   ],
   "note": ""
  },
  {
   "property": "C46",
   "status": "partial",
   "theorems": [
    "C46_builder_gives_what_was_asked",
    "C46_messages_are_checked",
    "C46_online_within_total",
    "C46_translation_partial",
    "C46_translation_refuted"
   ],
   "note": "Refuted for limits within 32 of the largest usize: the translation overflows (panic in debug builds, inconsistent limits in release builds). Proved for all others."
  },
  {
   "property": "C47",
   "status": "proved",
   "theorems": [
    "C47_passing_means_equal",
    "C47_equal_means_passing",
    "C47_once_and_in_order"
   ],
   "note": ""
  },
  {
   "property": "C48",
   "status": "proved",
   "theorems": [
    "C48_ascending_histories_are_accepted",
    "C48_translation_is_exact",
    "C48_translation_with_any_search",
    "C48_search_is_as_documented",
    "C48_translation_does_not_panic",
    "C48_distinct_slices_stay_distinct"
   ],
   "note": ""
  },
  {
   "property": "C49",
   "status": "proved",
   "theorems": [
    "C49_decoded_values_are_those_of_the_rfc",
    "C49_values_are_derived",
    "C49_setup_succeeds",
    "C49_flush_succeeds",
    "C49_flush_may_never_end"
   ],
   "note": ""
  },
  {
   "property": "C50",
   "status": "partial",
   "theorems": [
    "C50_shares_add_up_to_the_x_coordinate",
    "C50_equal_x_coordinates_do_not_panic_refuted",
    "C50_honest_exchange_yields_the_shared_secret",
    "C50_finished_exchange_yields_the_sum",
    "C50_check_compares_both_results",
    "C50_check_is_exact"
   ],
   "note": "Proved for points with different x-coordinates; for equal ones the inverse is taken with expect and a party panics (refuted, of negligible probability for honest parties). The group laws of the curve are hypotheses (curve_ok); that the modulus is prime is proved."
  },
  {
   "property": "C51",
   "status": "proved",
   "theorems": [
    "C51_reveal_lists_exactly_what_reveal_handlers_extract",
    "C51_one_bad_handler_reveals_nothing",
    "C51_shown_bytes_are_those_named_by_reveal_handlers",
    "C51_hash_only_bytes_are_not_shown",
    "C51_commitments_are_those_of_hash_handlers"
   ],
   "note": "The HTTP/JSON parser (spansy) and regex are parameters; hypotheses message_ok and get_ok state what is trusted of the parser."
  },
  {
   "property": "C52",
   "status": "proved",
   "theorems": [
    "C52_follower_completes_only_with_a_consistent_connection"
   ],
   "note": "The key exchange is an oracle (a pre-master secret of 32 bytes or a failure, see C50); the key derivation, the record layer and the final checks are those of C49, C40 and C43."
  },
  {
   "property": "C53",
   "status": "proved",
   "theorems": [
    "C53_handshake_data_is_that_of_the_messages",
    "C53_full_handshakes_are_accepted"
   ],
   "note": ""
  },
  {
   "property": "C54",
   "status": "partial",
   "theorems": [
    "C54_data_limits_hold",
    "C54_messages_do_not_panic",
    "C54_record_limits_partial",
    "C54_record_limits_refuted",
    "C54_messages_within_are_accepted_partial",
    "C54_messages_within_are_accepted_refuted"
   ],
   "note": "Data limits are proved. Record limits are refuted: a prover that leaves the numbers out gets the default numbers whatever the limit, and where no limit is set every stated number is refused."
  },
  {
   "property": "C55",
   "status": "partial",
   "theorems": [
    "C55_recorded_is_forwarded",
    "C55_the_traffic_is_complete",
    "C55_traffic_is_accepted",
    "C55_empty_traffic_does_not_panic_refuted"
   ],
   "note": "Refuted in one case: the verifier panics if the prover closes the stream without having sent a byte. Everything else is proved."
  },
  {
   "property": "C56",
   "status": "partial",
   "theorems": [
    "C56_extracted_bytes_are_those_the_handler_names",
    "C56_hidden_header_values_are_not_extracted",
    "C56_hidden_parts_of_fields_are_not_extracted",
    "C56_hidden_values_are_not_extracted_refuted"
   ],
   "note": "Proved for headers and for fields of objects; for elements of arrays hideValue is ignored and the value itself is extracted (refuted). The HTTP/JSON parser is a parameter with stated hypotheses."
  },
  {
   "property": "C57",
   "status": "partial",
   "theorems": [
    "C57_every_commitment_is_opened",
    "C57_one_opening_for_each_different_request",
    "C57_single_range_is_opened_at_its_index",
    "C57_openings_come_in_the_order_of_the_request_refuted",
    "C57_one_opening_for_each_range_refuted",
    "C57_openings_in_order_if_the_set_keeps_it_partial"
   ],
   "note": "Proved as sets, and by index for a single range per direction; the documented correspondence by index is refuted for two ranges (HashSet order) and for repeated ranges."
  },
  {
   "property": "C58",
   "status": "partial",
   "theorems": [
    "C58_follower_ends_with_a_result_or_an_error_partial",
    "C58_two_messages_keep_the_follower_busy_refuted",
    "C58_first_message_panics_refuted",
    "C58_closing_early_panics_refuted"
   ],
   "note": "Proved for messages in the order of the handshake with records in both directions; refuted otherwise: a hash before the hello loops for ever in the reduced network mode, a hello as the first message and closing without records panic."
  },
  {
   "property": "C59",
   "status": "proved",
   "theorems": [
    "C59_outputs_are_those_of_one_execution",
    "C59_follower_inputs_are_not_committed_before_finalization",
    "C59_right_outputs_are_accepted",
    "C59_leader_adopts_the_decoded_inputs"
   ],
   "note": "Empty slices marked as the follower's private inputs are left out of the two completeness theorems."
  },
  {
   "property": "C60",
   "status": "proved",
   "theorems": [
    "C60_parsing_ends_without_panic",
    "C60_parsed_messages_are_written_as_they_were_read",
    "C60_written_messages_are_read_back",
    "C60_transcripts_read_what_messages_say",
    "C60_messages_say_one_thing",
    "C60_transcripts_are_well_sequenced",
    "C60_handshake_data_is_that_of_the_messages",
    "C60_written_handshakes_are_accepted"
   ],
   "note": "All messages and extensions of tls-core/src/msgs/handshake.rs. Which byte strings are DNS names is a parameter. Enumerations are modelled by their numbers."
  },
  {
   "property": "C61",
   "status": "partial",
   "theorems": [
    "C61_client_accepts_what_the_server_signed",
    "C61_accepted_handshakes_are_recorded",
    "C61_recorded_handshakes_verify_partial",
    "C61_recorded_handshakes_verify_refuted",
    "C61_built_handshakes_verify",
    "C61_verified_handshakes_were_signed"
   ],
   "note": "Missing: recorded handshakes with servers whose certificate has a P-384 key do not verify (refuted: the algorithm is identified by an identifier that does not name the curve). webpki's key kinds and algorithm identifiers are stated in the model; signature validity is a parameter."
  },
  {
   "property": "C62",
   "status": "proved",
   "theorems": [
    "C62_no_data_before_the_server_is_authenticated",
    "C62_records_are_encrypted_after_change_cipher_spec"
   ],
   "note": "The client of crates/mpc-tls/src/client with the backend as an oracle that sees the whole history."
  },
  {
   "property": "C63",
   "status": "proved",
   "theorems": [
    "C63_records_are_written_in_order",
    "C63_records_are_read_in_order",
    "C63_records_of_the_backend_are_taken_in_order",
    "C63_data_received_are_delivered",
    "C63_data_accepted_are_sent"
   ],
   "note": "Six queues of the client, for all histories of calls."
  },
  {
   "property": "C64",
   "status": "partial",
   "theorems": [
    "C64_failed_connections_stay_failed",
    "C64_same_error_refuted",
    "C64_encrypted_alert_is_never_written_refuted",
    "C64_no_call_panics",
    "C64_two_alerts_panic_in_debug_builds_refuted",
    "C64_calls_out_of_order_panic_refuted"
   ],
   "note": "Failure is final and no call panics when the connection is started first in a release build. Refuted as documented: later errors may differ, alerts after encryption are never written, panics in debug builds and when calls are out of order."
  },
  {
   "property": "C65",
   "status": "proved",
   "theorems": [
    "C65_follower_completes_with_the_leader"
   ],
   "note": ""
  },
  {
   "property": "C66",
   "status": "proved",
   "theorems": [
    "C66_told_of_the_records_taken",
    "C66_leader_does_not_tell_application_data",
    "C66_leader_follows_the_protocol"
   ],
   "note": ""
  },
  {
   "property": "C67",
   "status": "proved",
   "theorems": [
    "C67_transcript_is_handed_out_once",
    "C67_transcript_is_of_what_was_asked"
   ],
   "note": ""
  },
  {
   "property": "C68",
   "status": "proved",
   "theorems": [
    "C68_handed_out_is_what_the_transcript_has",
    "C68_all_of_it_is_handed_out",
    "C68_handed_out_in_order",
    "C68_fetching_does_not_panic"
   ],
   "note": ""
  },
  {
   "property": "C69",
   "status": "partial",
   "theorems": [
    "C69_only_closing_panics",
    "C69_closing_never_panics_refuted"
   ],
   "note": "Release build (wrapping arithmetic). Closing panics only in the listed cases; that closing never panics is refuted (no records)."
  },
  {
   "property": "C70",
   "status": "partial",
   "theorems": [
    "C70_bytes_are_passed_on",
    "C70_nothing_is_lost_or_made_up",
    "C70_success_means_all_was_taken",
    "C70_success_means_all_was_sent_refuted"
   ],
   "note": "Data recorded as sent need not reach the socket when the server closes: refuted."
  },
  {
   "property": "C71",
   "status": "proved",
   "theorems": [
    "C71_close_notify_comes_last",
    "C71_closed_after_all_records"
   ],
   "note": ""
  },
  {
   "property": "C72",
   "status": "partial",
   "theorems": [
    "C72_polls_end_partial",
    "C72_bound_does_not_matter",
    "C72_polls_end_refuted",
    "C72_ends_after_close_notify_refuted",
    "C72_ends_after_drop_refuted"
   ],
   "note": "Proved: a poll returns unless the server closed during the handshake or packet processing does not settle. Refuted: polls end; the future ends after close_notify with trailing bytes; after an early drop."
  },
  {
   "property": "C73",
   "status": "proved",
   "theorems": [
    "C73_no_panic",
    "C73_result_is_given_once",
    "C73_application_is_told"
   ],
   "note": ""
  },
  {
   "property": "C74",
   "status": "partial",
   "theorems": [
    "C74_recorded_traffic_is_real",
    "C74_handed_over_once",
    "C74_success_means_handed_over",
    "C74_all_sent_is_recorded_refuted",
    "C74_all_recorded_was_sent_refuted",
    "C74_all_received_is_delivered_refuted"
   ],
   "note": "Refuted: recorded bytes to the server equal those sent (both directions); a slow application gets all that was received."
  },
  {
   "property": "C75",
   "status": "proved",
   "theorems": [
    "C75_close_notify_comes_last"
   ],
   "note": ""
  },
  {
   "property": "C76",
   "status": "partial",
   "theorems": [
    "C76_no_panic_and_one_result",
    "C76_application_is_told",
    "C76_ends_after_server_close_partial",
    "C76_ends_after_server_close_refuted"
   ],
   "note": "Ending after the server closed is proved once the handshake is over and refuted before."
  },
  {
   "property": "C77",
   "status": "proved",
   "theorems": [
    "C77_commits_exactly_the_parts",
    "C77_succeeds_iff_in_bounds",
    "C77_nothing_empty"
   ],
   "note": ""
  },
  {
   "property": "C78",
   "status": "partial",
   "theorems": [
    "C78_any_choice_of_secrets_partial",
    "C78_only_unions_of_parts",
    "C78_target_can_be_secret_refuted",
    "C78_padded_json_value_refuted",
    "C78_array_element_refuted"
   ],
   "note": "Refuted: target of a request without headers and body, values of a JSON body with bytes around the root value, single elements of arrays."
  },
  {
   "property": "C79",
   "status": "proved",
   "theorems": [
    "C79_close_is_not_lost",
    "C79_next_poll_closes",
    "C79_closes_only_if_asked"
   ],
   "note": ""
  },
  {
   "property": "C80",
   "status": "partial",
   "theorems": [
    "C80_driver_never_panics",
    "C80_driver_ends_once",
    "C80_io_is_not_lost",
    "C80_taken_once",
    "C80_kept_until_taken",
    "C80_closed_stays_closed_refuted"
   ],
   "note": "Refuted: a closed session stays closed after its IO was taken."
  },
  {
   "property": "C81",
   "status": "partial",
   "theorems": [
    "C81_accepted_iff_right",
    "C81_full_handshake",
    "C81_others_are_rejected",
    "C81_finished_header_is_checked_refuted"
   ],
   "note": "Proved as an equivalence. Refuted: the header of Finished messages and the tags of the client's records are checked."
  },
  {
   "property": "C82",
   "status": "proved",
   "theorems": [
    "C82_parties_agree",
    "C82_right_connections_are_accepted"
   ],
   "note": ""
  },
  {
   "property": "C83",
   "status": "proved",
   "theorems": [
    "C83_outputs_are_right"
   ],
   "note": ""
  },
  {
   "property": "C84",
   "status": "proved",
   "theorems": [
    "C84_honest_proofs_succeed"
   ],
   "note": ""
  },
  {
   "property": "C85",
   "status": "proved",
   "theorems": [
    "C85_reads_are_what_was_delivered",
    "C85_end_comes_after_all_bytes",
    "C85_one_promise_at_a_time",
    "C85_end_is_final"
   ],
   "note": ""
  },
  {
   "property": "C86",
   "status": "partial",
   "theorems": [
    "C86_writes_are_handed_over",
    "C86_writes_succeed",
    "C86_closed_once",
    "C86_success_means_written_refuted"
   ],
   "note": "Refuted: success of write, flush and close means that the bytes were written."
  },
  {
   "property": "C87",
   "status": "proved",
   "theorems": [
    "C87_sequences_are_der",
    "C87_sequences_are_read_back",
    "C87_subjects_are_named",
    "C87_subjects_differ"
   ],
   "note": ""
  },
  {
   "property": "C88",
   "status": "partial",
   "theorems": [
    "C88_keys_are_loaded",
    "C88_schemes_are_right",
    "C88_client_authentication",
    "C88_signed_only_with_certificate_refuted"
   ],
   "note": "Refuted: CertificateVerify is sent only after a certificate (an empty chain is accepted)."
  },
  {
   "property": "C89",
   "status": "partial",
   "theorems": [
    "C89_set_up",
    "C89_needs_key_and_iv",
    "C89_keystreams_are_fresh",
    "C89_counter_blocks",
    "C89_plain_blocks",
    "C89_blocks_are_given_out_once",
    "C89_counters_are_assigned",
    "C89_applied_to_matching_inputs",
    "C89_counter_mode",
    "C89_vectors",
    "C89_last_key_is_used_refuted"
   ],
   "note": "Refuted: blocks are made under the last key that was set (the first key schedule is kept)."
  },
  {
   "property": "C90",
   "status": "partial",
   "theorems": [
    "C90_configurations",
    "C90_one_of_each_in_order",
    "C90_complete_means_finished",
    "C90_transcript_is_of_the_connection",
    "C90_failure_is_final",
    "C90_results_are_true",
    "C90_right_calls_succeed",
    "C90_refused_calls_change_nothing_refuted",
    "C90_complete_stays_complete_refuted"
   ],
   "note": "Refuted: refused calls change nothing; a complete prover stays complete."
  },
  {
   "property": "C91",
   "status": "partial",
   "theorems": [
    "C91_one_of_each_in_order",
    "C91_outputs_are_verified",
    "C91_complete_means_whole",
    "C91_failure_is_final",
    "C91_refused_sockets_change_nothing",
    "C91_right_mpc_calls_succeed",
    "C91_right_proxy_calls_succeed",
    "C91_refused_runs_change_nothing_refuted"
   ],
   "note": "Refuted: a refused run changes nothing."
  },
  {
   "property": "C92",
   "status": "partial",
   "theorems": [
    "C92_encoding_is_prefix_free",
    "C92_text_is_sent",
    "C92_dns_names_are_made",
    "C92_equal_names_have_equal_encodings_refuted",
    "C92_kinds_are_separated_refuted"
   ],
   "note": "Refuted: equal names have equal encodings; kinds of names are separated."
  }
 ]
}