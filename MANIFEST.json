{
 "claims": [
  {
   "property": "C01",
   "status": "proved",
   "theorems": [
    "C01_items_roundtrip",
    "C01_hellos_roundtrip",
    "C01_handshake_roundtrip"
   ],
   "note": "round trip of every wire type; handshake messages through the buffer with arbitrary following bytes"
  },
  {
   "property": "C02",
   "status": "proved",
   "theorems": [
    "C02_items_size",
    "C02_handshake_size",
    "C02_length_prefix",
    "C02_handshake_prefix_refuted",
    "C02_extension_prefix_refuted"
   ],
   "note": "sizes exact for every written value; length prefixes true below the field width, refuted with witnesses beyond it"
  },
  {
   "property": "C03",
   "status": "proved",
   "theorems": [
    "C03_items_layout",
    "C03_handshake_layout",
    "C03_ec_types",
    "C03_numbers"
   ],
   "note": "layout equals the RFC presentation-language specification of Spec_Wire.v"
  },
  {
   "property": "C04",
   "status": "proved",
   "theorems": [
    "C04_reserialise_exact",
    "C04_server_hello",
    "C04_reserialise_refuted"
   ],
   "note": "false as stated (C04_reserialise_refuted: bytes after a ServerHello's extension block are dropped); exact for all other messages and for a ServerHello without such bytes"
  },
  {
   "property": "C05",
   "status": "proved",
   "theorems": [
    "C05_vectors_bounded",
    "C05_vectors_refuse",
    "C05_arrays",
    "C05_extension_constructors",
    "C05_client_hello_constructor",
    "C05_finished_constructor"
   ],
   "note": "constructor and parser bounds for every vector type"
  },
  {
   "property": "C06",
   "status": "proved",
   "theorems": [
    "C06_ec_types",
    "C06_parsers_total",
    "C06_buffer_total"
   ],
   "note": "all parsers and the handshake buffer are total"
  },
  {
   "property": "C07",
   "status": "proved",
   "theorems": [
    "C07_other_curve_types",
    "C07_enums_exact",
    "C07_unknown_handshake_type"
   ],
   "note": "all wire enumerations and unknown handshake types; content types are covered by C20"
  },
  {
   "property": "C08",
   "status": "proved",
   "theorems": [
    "C08_client_new",
    "C08_client_reads",
    "C08_record_layer_splitting",
    "C08_message_histories_splitting",
    "C08_fill_exact_splitting",
    "C08_fill_exact_next_bytes"
   ],
   "note": "fill_exact/read_exact, records, messages, application data, handshake and ChangeCipherSpec reads, histories of them, client construction and histories of client reads."
  },
  {
   "property": "C09",
   "status": "proved",
   "theorems": [
    "C09_short_stream_is_error",
    "C09_never_short"
   ],
   "note": ""
  },
  {
   "property": "C10",
   "status": "proved",
   "theorems": [
    "C10_writers_network_order",
    "C10_readers_network_order",
    "C10_roundtrip"
   ],
   "note": "both host byte orders"
  },
  {
   "property": "C11",
   "status": "proved",
   "theorems": [
    "C11_tag_comparison",
    "C11_compare_decides",
    "C11_length_mismatch_debug",
    "C11_length_mismatch_release"
   ],
   "note": "crypto_compare for all equal-length inputs; the AEAD tag comparison (mac_diff) for all 16-byte tags"
  },
  {
   "property": "C12",
   "status": "proved",
   "theorems": [
    "C12_reassembly_in_the_clear",
    "C12_reassembly_sealed"
   ],
   "note": "in the clear and sealed, every fragmentation"
  },
  {
   "property": "C13",
   "status": "proved",
   "theorems": [
    "C13_complete_message_removed",
    "C13_incomplete_message_kept",
    "C13_cases_cover"
   ],
   "note": ""
  },
  {
   "property": "C14",
   "status": "proved",
   "theorems": [
    "C14_records_in_the_clear",
    "C14_records_sealed"
   ],
   "note": "in the clear and sealed, including transport failures; the result is never a panic"
  },
  {
   "property": "C15",
   "status": "proved",
   "theorems": [
    "C15_real_cipher",
    "C15_end_to_end",
    "C15_whole_connection"
   ],
   "note": "for every cipher with opens e d, all histories, all splittings; the real cipher has opens (C15_real_cipher); C15_whole_connection covers clear traffic, key installation and sealed traffic in one run"
  },
  {
   "property": "C16",
   "status": "proved",
   "theorems": [
    "C16_sequence_numbers",
    "C16_any_history",
    "C16_after_installation",
    "C16_keys_set_once"
   ],
   "note": "every history on a healthy transport; C16_any_history drops the health assumption, C16_after_installation: numbering restarts at 0 when the cipher is installed, C16_keys_set_once: which happens once"
  },
  {
   "property": "C17",
   "status": "proved",
   "theorems": [
    "C17_real_cipher_refuted",
    "C17_reuse_leaks_plaintexts",
    "C17_nonces_never_repeat_refuted",
    "C17_reuse_for_every_cipher"
   ],
   "note": "false: C17_nonces_never_repeat_refuted, for every cipher and pair of payloads, and with the real cipher; C17_reuse_leaks_plaintexts states the consequence"
  },
  {
   "property": "C18",
   "status": "proved",
   "theorems": [
    "C18_no_clear_application_data",
    "C18_everything_sealed",
    "C18_encryptor_once"
   ],
   "note": ""
  },
  {
   "property": "C19",
   "status": "proved",
   "theorems": [
    "C19_real_cipher_refuted",
    "C19_announced_length",
    "C19_long_fragment_in_the_clear",
    "C19_no_panic_in_the_clear",
    "C19_sealed_long_record_refuted",
    "C19_sealed_long_record_always_panics"
   ],
   "note": "true for announced lengths and in the clear; false for sealed records (C19_sealed_long_record_refuted, C19_real_cipher_refuted), which always panic"
  },
  {
   "property": "C20",
   "status": "proved",
   "theorems": [
    "C20_unknown_type"
   ],
   "note": ""
  },
  {
   "property": "C21",
   "status": "proved",
   "theorems": [
    "C21_change_cipher_spec",
    "C21_alert"
   ],
   "note": ""
  },
  {
   "property": "C22",
   "status": "proved",
   "theorems": [
    "C22_wrong_version_refuted",
    "C22_every_version_accepted"
   ],
   "note": "false: C22_wrong_version_refuted; in the clear every version is accepted"
  },
  {
   "property": "C23",
   "status": "proved",
   "theorems": [
    "C23_real_cipher",
    "C23_delivered_records",
    "C23_delivered_application_data",
    "C23_writer_histories"
   ],
   "note": "reduction to a forged triple; for records and for application data; with the real cipher the forgery is a ChaCha20-Poly1305 sealing the peer never made"
  },
  {
   "property": "C24",
   "status": "proved",
   "theorems": [
    "C24_ledger",
    "C24_split_accepted",
    "C24_client_refuted",
    "C24_client_both_builds",
    "C24_real_cipher_refuted",
    "C24_finished_from_sealed_records_refuted",
    "C24_straddling_for_every_cipher",
    "C24_empty_buffer_suffices_partial"
   ],
   "note": "false: C24_finished_from_sealed_records_refuted (record layer, every cipher), C24_client_refuted (a whole connection), C24_split_accepted (every conforming server, every split). What holds instead: C24_ledger, C24_empty_buffer_suffices_partial"
  },
  {
   "property": "C25",
   "status": "proved",
   "theorems": [
    "C25_bytes_conserved",
    "C25_sizes_irrelevant",
    "C25_exact",
    "C25_last_read",
    "C25_end_to_end",
    "C25_genuine"
   ],
   "note": "Conservation for arbitrary streams; exact delivery for sealed application data; end to end from the handshake on; prefix of what the server sealed unless the transport forged a record."
  },
  {
   "property": "C26",
   "status": "proved",
   "theorems": [
    "C26_write",
    "C26_ready_to_write"
   ],
   "note": "With a writer under the session keys (which every connected client has) and sequence numbers not exhausted: Ok(n) exactly when everything reached the transport."
  },
  {
   "property": "C27",
   "status": "proved",
   "theorems": [
    "C27_after_close_refuted",
    "C27_after_close_both_builds",
    "C27_close_ignored"
   ],
   "note": "Refuted: application data after close_notify is delivered, in every connection and for every fragment."
  },
  {
   "property": "C28",
   "status": "proved",
   "theorems": [
    "C28_swallowed_refuted",
    "C28_swallowed_both_builds",
    "C28_swallowed"
   ],
   "note": "Refuted: the read returns Ok with no bytes and the next record is accepted."
  },
  {
   "property": "C29",
   "status": "proved",
   "theorems": [
    "C29_crash_refuted",
    "C29_crash_both_builds",
    "C29_crashing_records",
    "C29_record_layer",
    "C29_before_keys"
   ],
   "note": "Refuted: alerts other than close_notify, ChangeCipherSpec, handshake messages and over-long records, sealed by the server, make read panic. C52 is the positive counterpart."
  },
  {
   "property": "C30",
   "status": "proved",
   "theorems": [
    "C30_new_terminates",
    "C30_reads_terminate"
   ],
   "note": "Construction and every history of reads on a connected client; the model's transports and random tapes are finite."
  },
  {
   "property": "C31",
   "status": "proved",
   "theorems": [
    "C31_negotiated"
   ],
   "note": "All parts; whether the accepted point is on the curve is C56."
  },
  {
   "property": "C32",
   "status": "proved",
   "theorems": [
    "C32_handshake_refuted",
    "C32_every_curve_accepted",
    "C32_other_curve_refuted",
    "C32_curve_and_signature_ignored"
   ],
   "note": "Refuted: the parsed curve name is never looked at. A ServerKeyExchange naming secp384r1 with a P-256 point is accepted; the result is the same for every curve name, signature and trailing bytes."
  },
  {
   "property": "C33",
   "status": "proved",
   "theorems": [
    "C33_emissions"
   ],
   "note": "All runs, including transport failures in the middle of a flight or of the alert."
  },
  {
   "property": "C34",
   "status": "proved",
   "theorems": [
    "C34_alert",
    "C34_transport_failure",
    "C34_truncated_refuted",
    "C34_truncated_both_builds"
   ],
   "note": "An alert is sent exactly when the returned kind is not IoFailure. Refuted in one corner: a handshake message whose body is cut short is reported as IoFailure and no alert is sent."
  },
  {
   "property": "C35",
   "status": "proved",
   "theorems": [
    "C35_completes",
    "C35_server_computes",
    "C35_scalar_range",
    "C35_zero_scalar_refuted",
    "C35_zero_scalar_both_builds",
    "C35_certificate_request_refuted",
    "C35_certificate_request_both_builds"
   ],
   "note": "Proved for all conforming servers without client authentication and all randomness whose used scalar is not zero. Refuted for the rest: randomness with used scalar zero makes the client send (0,0), and a CertificateRequest is refused."
  },
  {
   "property": "C36",
   "status": "proved",
   "theorems": [
    "C36_initial_state",
    "C36_next_block",
    "C36_encrypt",
    "C36_length",
    "C36_own_inverse",
    "C36_counter_limit",
    "C36_records_fit"
   ],
   "note": "all keys, nonces, data; exact counter limit"
  },
  {
   "property": "C37",
   "status": "proved",
   "theorems": [
    "C37_poly1305",
    "C37_block",
    "C37_final"
   ],
   "note": "all messages and keys, both build modes"
  },
  {
   "property": "C38",
   "status": "proved",
   "theorems": [
    "C38_sha256",
    "C38_padding",
    "C38_padding_injective",
    "C38_schedule",
    "C38_cube_roots",
    "C38_constants",
    "C38_too_long"
   ],
   "note": "all messages below 2^61 bytes; above it a debug build panics"
  },
  {
   "property": "C39",
   "status": "proved",
   "theorems": [
    "C39_hmac",
    "C39_hmac_long_key",
    "C39_prf_requests",
    "C39_boundaries_do_not_matter"
   ],
   "note": "seeds up to 2^61-97 bytes; keys over 64 bytes panic"
  },
  {
   "property": "C40",
   "status": "proved",
   "theorems": [
    "C40_seal",
    "C40_open_seal",
    "C40_open_accepts_only_sealings",
    "C40_otherwise_bad_record_mac",
    "C40_short_refused"
   ],
   "note": "for data below 2^32 blocks"
  },
  {
   "property": "C41",
   "status": "proved",
   "theorems": [
    "C41_mac_input_injective",
    "C41_code_builds_it"
   ],
   "note": "lengths below 2^64"
  },
  {
   "property": "C42",
   "status": "proved",
   "theorems": [
    "C42_add",
    "C42_sub",
    "C42_double",
    "C42_mult",
    "C42_square",
    "C42_divide_by_2",
    "C42_compare",
    "C42_choose"
   ],
   "note": "all six operations, comparison and selection, in debug and release; p is proved prime in C43"
  },
  {
   "property": "C43",
   "status": "proved",
   "theorems": [
    "C43_p_is_prime",
    "C43_inverse"
   ],
   "note": "p256 proved prime by a checked Pocklington certificate"
  },
  {
   "property": "C44",
   "status": "proved",
   "theorems": [
    "C44_to_bytes",
    "C44_from_bytes_accepts",
    "C44_from_bytes_rejects",
    "C44_round_trip",
    "C44_round_trip_bytes"
   ],
   "note": ""
  },
  {
   "property": "C45",
   "status": "proved",
   "theorems": [
    "C45_noncanonical_refuted",
    "C45_off_curve_refuted",
    "C45_panic_refuted",
    "C45_shape",
    "C45_canonical",
    "C45_release_total",
    "C45_debug_on_curve",
    "C45_round_trip",
    "C45_encoding"
   ],
   "note": "false as stated, three witnesses: x = p is accepted, release accepts a point off the curve, debug panics; exact for canonical coordinates, release total, debug accepts only points on the curve modulo p"
  },
  {
   "property": "C46",
   "status": "proved",
   "theorems": [
    "C46_double",
    "C46_add",
    "C46_normalize",
    "C46_closed",
    "C46_group"
   ],
   "note": "Jacobian formulas refine the affine chord-and-tangent law for all representations; associativity of the law is proved"
  },
  {
   "property": "C47",
   "status": "proved",
   "theorems": [
    "C47_refuted",
    "C47_effective_scalar",
    "C47_only_56_bits",
    "C47_small_scalars",
    "C47_base_point_order"
   ],
   "note": "false as stated (C47_refuted: only the low byte of limbs 0 to 6 is used); the exact scalar used is characterised for all inputs"
  },
  {
   "property": "C48",
   "status": "proved",
   "theorems": [
    "C48_agreement",
    "C48_public_value",
    "C48_shared_value"
   ],
   "note": "for all private values, including the degenerate ones whose public value is (0,0)"
  },
  {
   "property": "C49",
   "status": "proved",
   "theorems": [
    "C49_first_group_below_p",
    "C49_source_failure",
    "C49_only_below_p"
   ],
   "note": "The random source is a byte tape; groups of eight little-endian draws. Success exactly with the first group below p, whose value is returned unchanged; a source that fails first panics (OsRng)."
  },
  {
   "property": "C50",
   "status": "proved",
   "theorems": [
    "C50_hmac_keys",
    "C50_success_shape",
    "C50_errors",
    "C50_release_total",
    "C50_debug_refuted",
    "C50_accepts"
   ],
   "note": "compute_keys: every outcome classified; the Debug-build panic while decoding a point is a refutation of totality. HMAC keys of the client are 32 and 48 bytes long."
  },
  {
   "property": "C51",
   "status": "proved",
   "theorems": [
    "C51_new_panics",
    "C51_release_panics"
   ],
   "note": "Streams below 2^64 bytes."
  },
  {
   "property": "C52",
   "status": "proved",
   "theorems": [
    "C52_reads_safe",
    "C52_reads_safe_unless"
   ],
   "note": "Streams below 2^64 bytes. C52_reads_safe assumes no leftover handshake bytes behind the Finished; C52_reads_safe_unless has no such assumption and names the one remaining coincidence (verify_data ending in the first bytes of the Finished)"
  },
  {
   "property": "C53",
   "status": "proved",
   "theorems": [
    "C53_reads_alone",
    "C53_writes_alone",
    "C53_reads_are_calls"
   ],
   "note": "Arbitrary client states and interleavings."
  },
  {
   "property": "C54",
   "status": "proved",
   "theorems": [
    "C54_sealed_output"
   ],
   "note": "As long as sequence numbers are not exhausted."
  },
  {
   "property": "C55",
   "status": "proved",
   "theorems": [
    "C55_wrong_message"
   ],
   "note": ""
  },
  {
   "property": "C56",
   "status": "proved",
   "theorems": [
    "C56_off_curve_refuted",
    "C56_debug_on_curve"
   ],
   "note": "Refuted in release builds: a whole handshake with a public key off the curve. True in debug builds."
  },
  {
   "property": "C57",
   "status": "proved",
   "theorems": [
    "C57_unverified_refuted",
    "C57_nothing_verified"
   ],
   "note": "Refuted: any certificate list and any signature go through."
  },
  {
   "property": "C58",
   "status": "proved",
   "theorems": [
    "C58_faults_reported",
    "C58_errors_explained"
   ],
   "note": "Both directions: each fault gives its error, its alert and the exact output; every error has a fault. The faults are listed in Spec_Client.fault without reference to the phases used in proofs."
  },
  {
   "property": "C59",
   "status": "proved",
   "theorems": [
    "C59_agreement",
    "C59_finished",
    "C59_transcripts"
   ],
   "note": "Exceptions are explicit witnesses; the splice one exists because of C24"
  },
  {
   "property": "C60",
   "status": "proved",
   "theorems": [
    "C60_construction",
    "C60_any_history",
    "C60_messages",
    "C60_limit_needed"
   ],
   "note": "C60_limit_needed: the bound on the handshake buffer is not slack by more than a record"
  },
  {
   "property": "C61",
   "status": "proved",
   "theorems": [
    "C61_only_used_bytes_matter",
    "C61_amount",
    "C61_calls_use_none"
   ],
   "note": "C61_only_used_bytes_matter is about runs that return a result or an error; C61_amount about successful ones"
  },
  {
   "property": "C62",
   "status": "proved",
   "theorems": [
    "C62_after_close_refuted",
    "C62_after_close_both_builds",
    "C62_writes_after_close"
   ],
   "note": "false: C62_after_close_refuted; C62_writes_after_close says what is sent instead"
  },
  {
   "property": "C63",
   "status": "proved",
   "theorems": [
    "C63_unsolicited_refuted",
    "C63_unsolicited_both_builds",
    "C63_extensions_ignored"
   ],
   "note": "false: C63_unsolicited_refuted; C63_extensions_ignored: every well-formed extension list is accepted"
  },
  {
   "property": "C64",
   "status": "proved",
   "theorems": [
    "C64_truncation_refuted",
    "C64_truncation_both_builds",
    "C64_indistinguishable",
    "C64_answers",
    "C64_never_an_error"
   ],
   "note": "false: C64_truncation_refuted; C64_answers and C64_indistinguishable say what the application sees"
  },
  {
   "property": "C65",
   "status": "proved",
   "theorems": [
    "C65_waits_refuted",
    "C65_waits_both_builds",
    "C65_short_only_after_failure"
   ],
   "note": "false: C65_waits_refuted; C65_short_only_after_failure says when a read returns early"
  },
  {
   "property": "C66",
   "status": "proved",
   "theorems": [
    "C66_truncated_scalar_refuted",
    "C66_truncated_scalar_both_builds",
    "C66_connection_is_56_bits",
    "C66_keys_are_56_bits"
   ],
   "note": "false: C66_truncated_scalar_refuted; C66_connection_is_56_bits is the exact dependence"
  },
  {
   "property": "C67",
   "status": "proved",
   "theorems": [
    "C67_peer_hears"
   ],
   "note": "for transports that take everything"
  },
  {
   "property": "C68",
   "status": "proved",
   "theorems": [
    "C68_warning_refuted",
    "C68_warning_both_builds",
    "C68_any_alert",
    "C68_alert_for_ccs",
    "C68_first_answer",
    "C68_instead_of_finished"
   ],
   "note": "False: the code treats every alert as fatal (src/alert.rs says so). C68_warning_refuted gives a handshake that connects, and fails with a warning in front. The other theorems say exactly what happens for every alert at every point; an alert in place of the ChangeCipherSpec is reported as UnexpectedMessage."
  },
  {
   "property": "C69",
   "status": "proved",
   "theorems": [
    "C69_cut_message",
    "C69_long_message",
    "C69_kinds",
    "C69_first_message",
    "C69_cut_hello",
    "C69_decode_error_refuted",
    "C69_decode_error_both_builds"
   ],
   "note": "False: too short gives IoFailure and no alert at all (std::io::Error becomes IoFailure), too long gives InternalError (alert 80). C69_cut_message and C69_long_message cover every cut point and every message with a structured body; a hello cut exactly in front of its extensions is accepted without them."
  },
  {
   "property": "C70",
   "status": "proved",
   "theorems": [
    "C70_meaning"
   ],
   "note": "The meaning relation is in Spec_Client4. UnexpectedMessage has no meaning attached here; C34 and C30 say when it is returned."
  },
  {
   "property": "C71",
   "status": "proved",
   "theorems": [
    "C71_record",
    "C71_skipped",
    "C71_in_place_of_finished"
   ],
   "note": "Accepted plaintexts above 2^14 bytes panic (C19), which needs the key. The refused record takes no number, so the stream can be continued after it (C71_skipped)."
  },
  {
   "property": "C72",
   "status": "proved",
   "theorems": [
    "C72_distinct",
    "C72_every_value"
   ],
   "note": "The exact counterpart of C66. Uses that the base point has prime order (C47_base_point_order); zero used scalars are C35_zero_scalar_refuted."
  },
  {
   "property": "C73",
   "status": "proved",
   "theorems": [
    "C73_compare_result",
    "C73_seal_result",
    "C73_open_result",
    "C73_hmac_result",
    "C73_prf_result",
    "C73_compare_traces",
    "C73_seal_traces",
    "C73_open_traces",
    "C73_open_short",
    "C73_hmac_traces",
    "C73_prf_traces"
   ],
   "note": "Over the instruction-level programs of M_Leak.v and M_Leak2.v, which are polymorphic in the type of words and are proved to compute what the functional models compute (C73_*_result). ex_early_exit shows that traces tell an early-exit comparison apart."
  },
  {
   "property": "C74",
   "status": "proved",
   "theorems": [
    "C74_exchange_result",
    "C74_exchange_traces",
    "C74_random_result",
    "C74_random_traces",
    "C74_debug_refuted"
   ],
   "note": "C74_debug_refuted: in debug builds two private values give different traces, because debug_assert!(!(carry_sub.0 == 0 && carry.0 == 1)) branches on carries."
  },
  {
   "property": "C75",
   "status": "proved",
   "theorems": [
    "C75_read_exact",
    "C75_connected",
    "C75_served",
    "C75_eof_refuted",
    "C75_eof_always",
    "C75_masked"
   ],
   "note": "Shape, lengths and origin of the bytes proved for every client with keys (C75_read_exact, C75_served); the reading of UnexpectedEof as the end is refuted (C75_eof_refuted, C75_eof_always), and C75_masked shows junk in the middle unnoticed."
  },
  {
   "property": "C76",
   "status": "proved",
   "theorems": [
    "C76_read_to_end",
    "C76_served",
    "C76_truncation_refuted",
    "C76_junk_refuted",
    "C76_refuted_both_builds"
   ],
   "note": "Termination, uniqueness and completeness for honest servers proved for every choice of buffers; success as a sign of the end is refuted (C76_truncation_refuted, C76_junk_refuted)."
  },
  {
   "property": "C77",
   "status": "proved",
   "theorems": [
    "C77_from_tcp",
    "C77_example",
    "C77_shown",
    "C77_silent"
   ],
   "note": "The example program end to end; C77_shown holds on any transport up to a forged record."
  },
  {
   "property": "C78",
   "status": "proved",
   "theorems": [
    "C78_splitting",
    "C78_causal",
    "C78_ends",
    "C78_outcome"
   ],
   "note": "Spec_Talk: the mark RErr at the end of the arrived bytes stands for a blocked read; a call that hits it is waiting and is run again with more bytes. Servers are functions from everything seen to everything sent. Conversation, confluence and termination are proved by showing that every reader and client function is causal in its source; this also shows that the fixed-stream model of the other properties describes interactive servers."
  },
  {
   "property": "C79",
   "status": "proved",
   "theorems": [
    "C79_pipe",
    "C79_servers"
   ],
   "note": "Spec_Talk2: plain pipe (applications over bytes and close marks) and TLS servers as functions from bytes seen to bytes sent. C79_pipe: both conversations have exactly one end, and they correspond. C79_servers: such a server exists for every causal service of limited length (a program that parses the client's bytes, P_Server). The healthy transport and the bound of 2^64 bytes said are hypotheses; no attacker (C25, C59 and C77 cover those)."
  },
  {
   "property": "C80",
   "status": "proved",
   "theorems": [
    "C80_change_cipher_spec_test",
    "C80_application_test",
    "C80_application_test_all_data",
    "C80_application_test_fails",
    "C80_pieces",
    "C80_cut_unique",
    "C80_any_iv"
   ],
   "note": "The tests are modelled line by line in M_Test.v (no IV is installed there); an IV that is absent or of another length acts like one padded with zeros to 12 bytes, by a simulation argument, so the end-to-end theorem carries over."
  },
  {
   "property": "C81",
   "status": "proved",
   "theorems": [
    "C81_keys_fixed",
    "C81_rekeying_panics",
    "C81_nonces",
    "C81_sealed",
    "C81_separate",
    "C81_returns",
    "C81_writing_never_panics"
   ],
   "note": "Nonces need a transport that works (C22 shows the repetition otherwise). Writing limits: records of at most 2^14 bytes from Record::new, 2^14+2048-16 built by hand, encodable handshake messages, fewer than 2^64 records."
  },
  {
   "property": "C82",
   "status": "proved",
   "theorems": [
    "C82_refuted",
    "C82_otherwise",
    "C82_sent",
    "C82_longer_panics"
   ],
   "note": "Refuted: Record { .. } with 16385 to 18416 bytes is sealed and sent. True for histories without hand-built records of that length; above 18416 bytes write_record panics before sending."
  },
  {
   "property": "C83",
   "status": "proved",
   "theorems": [
    "C83_construction",
    "C83_histories",
    "C83_decoding"
   ],
   "note": "Relational proof over every function that depends on the build mode. The builds do differ during construction on points off the curve (C50, C56): there the debug build panics, which is why the first part assumes no panic."
  },
  {
   "property": "C84",
   "status": "proved",
   "theorems": [
    "C84_uniform",
    "C84_nothing_else",
    "C84_fruitless",
    "C84_used_bits_at_most",
    "C84_used_bits_at_least"
   ],
   "note": "Explicit bijections. That the bytes of OsRng are uniform is an assumption about the operating system; the theorems count tapes."
  },
  {
   "property": "C85",
   "status": "proved",
   "theorems": [
    "C85_reading_panics",
    "C85_overlong",
    "C85_other"
   ],
   "note": "needs fewer than 2^64-1 bytes on the connection"
  },
  {
   "property": "C86",
   "status": "proved",
   "theorems": [
    "C86_splitting",
    "C86_causal",
    "C86_ends",
    "C86_outcome",
    "C86_history",
    "C86_nonces",
    "C86_applications"
   ],
   "note": "Splitting, causality, confluence to one end, outcome, correspondence with histories (C81-C85), nonces; applications of C78 are a special case."
  },
  {
   "property": "C87",
   "status": "proved",
   "theorems": [
    "C87_found",
    "C87_one_guess",
    "C87_right_session",
    "C87_overheard",
    "C87_replayed",
    "C87_halves"
   ],
   "note": "Existence and uniqueness of the guess, identity of the session, decryption of both directions, meet-in-the-middle equation."
  },
  {
   "property": "C88",
   "status": "proved",
   "theorems": [
    "C88_service_decides",
    "C88_answered",
    "C88_learned",
    "C88_relay"
   ],
   "note": "Corollary of the pipe theorem C79 for both sides of the relay. Services of fewer than 2^64-16 bytes, applications that say fewer than 2^64-1 bytes."
  },
  {
   "property": "C89",
   "status": "proved",
   "theorems": [
    "C89_connects",
    "C89_only_these",
    "C89_all_of_these",
    "C89_once",
    "C89_rest"
   ],
   "note": "C89_connects is the equivalence; C89_only_these and C89_all_of_these are its two directions with the state of the client; C89_once: the description is unique; C89_rest: what follows is not looked at. The values the client goes on with are those for which compute_keys succeeds, which C32, C56 and C59 describe. The bound is on the total number of bytes (2^64), for the record counter"
  },
  {
   "property": "C90",
   "status": "proved",
   "theorems": [
    "C90_receive",
    "C90_read",
    "C90_only_reads",
    "C90_receive_one",
    "C90_read_one",
    "C90_connection"
   ],
   "note": "Both directions, with totality and uniqueness of the description. `V_overlong` is the panic of Record::new's limit; it needs the peer to seal more than 16384 bytes. The transport may cut the stream anywhere but ends without an error (`clean`); C75 and C76 cover transports that fail. Agrees with the refutations of C27, C28, C29 and C75, which are single rules of it."
  },
  {
   "property": "C91",
   "status": "proved",
   "theorems": [
    "C91_construction",
    "C91_some",
    "C91_one",
    "C91_stage",
    "C91_connects",
    "C91_first_flight"
   ],
   "note": "C91_construction (result and bytes sent are those of the description, for every stream), C91_some and C91_one (one answer for every stream), C91_stage (how far the run got), C91_connects (Ok exactly for C89's streams), C91_first_flight (an accepted first flight is accepted whatever follows)."
  },
  {
   "property": "C92",
   "status": "proved",
   "theorems": [
    "C92_encrypts",
    "C92_encrypt_panics",
    "C92_decrypt_short",
    "C92_decrypts",
    "C92_decrypt_panics",
    "C92_opens_own",
    "C92_within_limit",
    "C92_debug_limit_refuted",
    "C92_release_limit_refuted",
    "C92_release_exposes_key",
    "C92_stream_repeats",
    "C92_suite_read",
    "C92_suites",
    "C92_parameters",
    "C92_fixed_iv_refuted"
   ],
   "note": "C92_encrypts, C92_encrypt_panics (encryption on all inputs), C92_decrypt_short, C92_decrypts, C92_decrypt_panics (decryption on all inputs), C92_opens_own, C92_within_limit, C92_suite_read, C92_suites, C92_parameters. Refuted against the standards: C92_debug_limit_refuted, C92_release_limit_refuted with C92_release_exposes_key, C92_fixed_iv_refuted; C92_stream_repeats against the comment at src/crypto/chacha20.rs:94."
  },
  {
   "property": "C93",
   "status": "proved",
   "theorems": [
    "C93_session",
    "C93_one",
    "C93_from_here",
    "C93_example",
    "C93_parcels"
   ],
   "note": "Equivalence both ways with the description in Spec_Life.v (built on those of C89-C91). Room: the stream and the number of records sent stay below 2^64."
  },
  {
   "property": "C94",
   "status": "proved",
   "theorems": [
    "C94_wrapping",
    "C94_wrapping_twice",
    "C94_wrapping_used",
    "C94_descriptions",
    "C94_texts",
    "C94_io",
    "C94_errors",
    "C94_own_alerts",
    "C94_alert_filter_refuted",
    "C94_alert_any",
    "C94_obscure",
    "C94_obscure_only"
   ],
   "note": "The part on Alert::new is refuted: it accepts every combination (C94_alert_filter_refuted, C94_alert_any); the client itself sends only allowed ones (C94_own_alerts)."
  },
  {
   "property": "C95",
   "status": "proved",
   "theorems": [
    "C95_session",
    "C95_from_here",
    "C95_read",
    "C95_receive",
    "C95_one",
    "C95_unbroken",
    "C95_between",
    "C95_pause",
    "C95_within",
    "C95_never",
    "C95_retry_refuted"
   ],
   "note": "The last part is refuted (C95_retry_refuted): the part of the record that was read is dropped, and reading goes on in the middle of it (C95_within); the data of a record cut before its last byte never comes (C95_never). Between records nothing is lost (C95_between), but read then answers as at the end (C95_pause)."
  },
  {
   "property": "C96",
   "status": "proved",
   "theorems": [
    "C96_session",
    "C96_construction",
    "C96_from_here",
    "C96_one",
    "C96_working",
    "C96_first_part",
    "C96_break",
    "C96_clean_retry",
    "C96_retry_refuted",
    "C96_example"
   ],
   "note": "The last part is refuted (C96_retry_refuted): the number of the record that was cut is not used up, so the write is sealed again under the same number (see C17), in the middle of the record that was cut, and the peer never sees the data. If nothing of the record was taken the write can be repeated (C96_clean_retry)."
  },
  {
   "property": "C97",
   "status": "proved",
   "theorems": [
    "C97_exact",
    "C97_size",
    "C97_unique",
    "C97_crate",
    "C97_crate_sensible",
    "C97_width",
    "C97_width_refuted",
    "C97_empty_refuted"
   ],
   "note": "Proved for declarations that make sense (distinct codes that fit, vectors of at most 2^32-1 bytes, elements that are never empty); C97_crate and C97_crate_sensible show that the types of the crate are such. The macros accept others: a vector of elements that may be empty is read for ever (C97_empty_refuted), and a vector of 2^32 bytes or more gets a prefix wider than RFC 5246 asks for (C97_width_refuted)."
  },
  {
   "property": "C98",
   "status": "proved",
   "theorems": [
    "C98_read_exact",
    "C98_read_to_end",
    "C98_one",
    "C98_bridges",
    "C98_pauses",
    "C98_goes_on",
    "C98_stops",
    "C98_room_refuted"
   ],
   "note": "The exact description is proved (C98_read_exact, C98_read_to_end). Both last claims fail when the transport fails between two records: read_exact reports the end and succeeds when called again (C98_pauses), or does not notice (C98_bridges), and read_to_end stops or goes on depending on whether the data before the failure had just filled its buffer (C98_room_refuted, C98_stops, C98_goes_on)."
  },
  {
   "property": "C99",
   "status": "proved",
   "theorems": [
    "C99_release",
    "C99_debug",
    "C99_before",
    "C99_again",
    "C99_reuse_refuted",
    "C99_read_release",
    "C99_read_debug",
    "C99_replay_refuted"
   ],
   "note": "Refuted, with the exact behaviour proved for any number of records. Release: every write succeeds and the numbers start again at 0 (C99_release), so the key and number of a record seal another 2^64 records later (C99_again, C99_reuse_refuted), and the reader accepts the old bytes once more (C99_read_release, C99_replay_refuted). Debug: the record numbered 2^64-1 is sent and then the call panics (C99_debug); receiving that record panics (C99_read_debug). Up to there the numbers are those of the other properties (C99_before)."
  },
  {
   "property": "C100",
   "status": "proved",
   "theorems": [
    "C100_session",
    "C100_std",
    "C100_mild",
    "C100_stops",
    "C100_reached",
    "C100_read_refuted"
   ],
   "note": "The part about writing is proved, for every transport that takes a slice or fails after a part of it (C100_session), among them the loop of std over any sequence of write calls (C100_std, C100_mild); conversely the outcomes of the model are reached (C100_reached). The part about reading is refuted: fill_exact returns the first error, Interrupted included, so one interrupted read ends the handshake (C100_read_refuted; C95 says what follows in general)."
  },
  {
   "property": "C101",
   "status": "proved",
   "theorems": [
    "C101_session",
    "C101_refused",
    "C101_one",
    "C101_alike",
    "C101_total",
    "C101_length_refuted"
   ],
   "note": "The first part is proved: the sequence of types and lengths is opening ++ use_shape (C101_session), one of five for constructions that fail (C101_refused), determined by the bytes (C101_one) and equal for two sessions exactly if their calls have equal shapes, whatever the servers, tapes, keys and data (C101_alike). The second is refuted: nothing is padded, so the exact number of bytes shows (C101_total, C101_length_refuted)."
  },
  {
   "property": "C102",
   "status": "proved",
   "theorems": [
    "C102_replay",
    "C102_tape_refuted",
    "C102_pad"
   ],
   "note": "The first part is proved in the form of an equation that would have to hold (C102_replay): the model has no probabilities, so what is said is what an attacker would need, not how likely it is. The second part is refuted for equal tapes (C102_tape_refuted, C102_pad): nothing but the random bytes tells two runs apart, so a generator whose state is restored gives one key stream for two messages."
  },
  {
   "property": "C103",
   "status": "proved",
   "theorems": [
    "C103_forgery",
    "C103_code",
    "C103_consistent",
    "C103_record",
    "C103_open",
    "C103_prime",
    "C103_never_refuted",
    "C103_weak"
   ],
   "note": "The bound is that of roots of a polynomial modulo the prime 2^130 - 5 (C103_prime): two messages and two tags are explained by at most 2^25 keys for each block, of the 2^128 that explain the first. That the one-time keys of ChaCha20 are spread evenly is an assumption about ChaCha20 and not part of the theorem. The second sentence is refuted: keys whose clamped half is zero give everything one tag (C103_never_refuted, C103_weak)."
  },
  {
   "property": "C104",
   "status": "proved",
   "theorems": [
    "C104_records",
    "C104_client",
    "C104_one_try_refuted",
    "C104_patient"
   ],
   "note": "Counted for [read_record] and for the calls of [read] of the application. The last sentence is refuted (C104_one_try_refuted, C104_patient): a refused record takes no number and [read] answers with zero bytes, so an application that goes on reading gives a forger any number of tries at the same one-time key, and the genuine record is accepted behind them."
  },
  {
   "property": "C105",
   "status": "proved",
   "theorems": [
    "C105_read",
    "C105_partition",
    "C105_bytes",
    "C105_write",
    "C105_write_anywhere_refuted",
    "C105_format",
    "C105_format_pieces",
    "C105_format_stops",
    "C105_vectored",
    "C105_vectored_none",
    "C105_vectored_all_refuted"
   ],
   "note": "Reads: equal results for every partition, in every state. Writes: equal if the cuts are at multiples of 16384 bytes (C105_write); elsewhere the bytes on the wire differ (C105_write_anywhere_refuted) though the peer reads the same text (C105_format). A vectored call serves the first non-empty buffer only (C105_vectored, C105_vectored_all_refuted). std's default methods are modelled from their documentation in M_Std2.v."
  },
  {
   "property": "C106",
   "status": "proved",
   "theorems": [
    "C106_chacha",
    "C106_explained",
    "C106_twice",
    "C106_back",
    "C106_else",
    "C106_hidden",
    "C106_reused",
    "C106_close_reveals",
    "C106_any_transport_refuted"
   ],
   "note": "A one-time-pad argument: no assumption about ChaCha20, whose key stream is one of those counted (C106_chacha). It needs that no number is used twice, which successful calls give (C16). The last sentence is refuted (C106_any_transport_refuted): a write that fails does not use up its number, so a close after it is sealed under the same nonce, and its two known bytes give the first two bytes of the data to anyone who sees the wire (C106_close_reveals)."
  },
  {
   "property": "C107",
   "status": "proved",
   "theorems": [
    "C107_accepted",
    "C107_panics",
    "C107_release",
    "C107_debug",
    "C107_curves",
    "C107_three",
    "C107_each_curve",
    "C107_off_curve",
    "C107_every_point_refuted",
    "C107_handshake"
   ],
   "note": "Completes C45, which had exactness for canonical coordinates only. The last sentence is refuted (C107_every_point_refuted): a point of the curve with x >= p, found by search, is refused by both builds since the left side of the comparison is not fully reduced. Off-curve points are accepted in release exactly where the debug build stops (C107_off_curve)."
  },
  {
   "property": "C108",
   "status": "proved",
   "theorems": [
    "C108_multiple",
    "C108_group",
    "C108_one_curve",
    "C108_accepted",
    "C108_secret",
    "C108_connects",
    "C108_P256_refuted"
   ],
   "note": "The formulas do not mention b, so they are right on every curve with the same first coefficient and no singular point (C108_multiple); the curves of accepted points are such (C108_accepted). The last sentence is refuted for the release build (C108_P256_refuted): a handshake with a point off P-256 goes through."
  },
  {
   "property": "C109",
   "status": "proved",
   "theorems": [
    "C109_panics",
    "C109_builds",
    "C109_panics_any",
    "C109_builds_any",
    "C109_one_point",
    "C109_bursts",
    "C109_agree_refuted"
   ],
   "note": "Both directions of the first sentence (C109_panics), with over-long records described by what they hold (C109_bursts); the builds part exactly on such a point (C109_builds), of which a stream holds at most one (C109_one_point). The last clause is refuted (C109_agree_refuted): the debug build panics, the release build goes on. On transports that fail: C109_panics_any, C109_builds_any."
  },
  {
   "property": "C110",
   "status": "proved",
   "theorems": [
    "C110_hash",
    "C110_hmac",
    "C110_hmac_keys_refuted",
    "C110_rounds",
    "C110_schedule",
    "C110_extension",
    "C110_agreement"
   ],
   "note": "C110_hash, C110_hmac, C110_rounds, C110_schedule, C110_extension, C110_agreement. \"Whatever the keys\" is refuted for keys of different lengths (C110_hmac_keys_refuted): zeros at the end of a key make no difference; C110_hmac holds for keys of one length, as all the secrets of the crate are."
  },
  {
   "property": "C111",
   "status": "proved",
   "theorems": [
    "C111_round",
    "C111_rounds",
    "C111_states",
    "C111_blocks",
    "C111_turned",
    "C111_constants",
    "C111_moves_refuted",
    "C111_only_zero",
    "C111_moves"
   ],
   "note": "C111_round, C111_rounds, C111_states, C111_blocks, C111_turned, C111_constants. \"No state is its own block\" is refuted for states in general (C111_moves_refuted): zeros stay zeros. They are the only such state (C111_only_zero), and no state of the cipher is its own block (C111_moves)."
  },
  {
   "property": "C112",
   "status": "proved",
   "theorems": [
    "C112_master",
    "C112_client_keys",
    "C112_server_keys",
    "C112_directions",
    "C112_clients",
    "C112_origin",
    "C112_unbound",
    "C112_messages_refuted"
   ],
   "note": "C112_master, C112_client_keys, C112_server_keys, C112_directions, C112_clients, C112_origin, C112_unbound. The last clause is refuted (C112_messages_refuted): the keys are bound to the secret and the randoms only, not to the certificates or the signature."
  },
  {
   "property": "C113",
   "status": "proved",
   "theorems": [
    "C113_decided",
    "C113_decided_any",
    "C113_waits",
    "C113_small_refuted",
    "C113_reading",
    "C113_reading_refuted"
   ],
   "note": "C113_decided, C113_decided_any (any transport), C113_waits, C113_reading. The last two clauses are refuted: C113_small_refuted (a stream of 100663308 bytes leaves every client undecided) and C113_reading_refuted (any number of sealed empty records leaves a read of one byte undecided)."
  },
  {
   "property": "C114",
   "status": "proved",
   "theorems": [
    "C114_refused",
    "C114_two_clients",
    "C114_refused_any",
    "C114_two_clients_any",
    "C114_own_record"
   ],
   "note": "C114_refused, C114_two_clients, C114_own_record; C114_refused_any and C114_two_clients_any for transports that fail. That no ciphertext is a sealing under two keys is not claimed: ChaCha20-Poly1305 does not commit to its key, so the case is left in the statement."
  },
  {
   "property": "C115",
   "status": "proved",
   "theorems": [
    "C115_few",
    "C115_few_open",
    "C115_reflected",
    "C115_own_few",
    "C115_one_key_refuted"
   ],
   "note": "C115_few, C115_few_open; C115_reflected and C115_own_few count the data of a client whose records a client would open, the case C114_own_record leaves; C115_one_key_refuted gives the record of two keys. The bound is on the values of one block with the others fixed, and needs that the two points have different powers."
  },
  {
   "property": "C116",
   "status": "proved",
   "theorems": [
    "C116_few_points",
    "C116_anyone_seals",
    "C116_client",
    "C116_blind",
    "C116_close",
    "C116_unforgeable_refuted"
   ],
   "note": "C116_few_points, C116_anyone_seals, C116_client, C116_blind (the data not known: any bits of it changed), C116_close; C116_unforgeable_refuted is a connection where the last byte of a record is lost, which leaves 2^22 points. The server is not in the statement: that the forged record is the one it would accept in place of the client's is that it equals sealed_record."
  },
  {
   "property": "C117",
   "status": "proved",
   "theorems": [
    "C117_enough",
    "C117_blind",
    "C117_needed",
    "C117_sufficient"
   ],
   "note": "C117_enough; C117_blind if the data is not known: any bits of it are changed. C117_needed, C117_sufficient: counted over all one-time keys that explain the record, between 2^92 and 2^106 tries. The number is that of the clamped halves of one-time keys. A client that gave up at the first refused record, as RFC 5246 7.2.2 demands, would make the theorem false."
  }
 ]
}