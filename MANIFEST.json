{
 "claims": [
  {
   "property": "C01",
   "status": "proved",
   "theorems": [
    "C01_round_trip",
    "C01_round_trip_general",
    "C01_round_trip_base"
   ],
   "note": ""
  },
  {
   "property": "C02",
   "status": "proved",
   "theorems": [
    "C02_canonical"
   ],
   "note": ""
  },
  {
   "property": "C03",
   "status": "proved",
   "theorems": [
    "C03_unmarshal_total"
   ],
   "note": ""
  },
  {
   "property": "C04",
   "status": "proved",
   "theorems": [
    "C04_ok_iff_fits"
   ],
   "note": ""
  },
  {
   "property": "C05",
   "status": "partial",
   "theorems": [
    "C05_short_buffer_partial",
    "C05_short_never_ok_partial",
    "C05_sized_buffer_panics",
    "C05_short_buffer_refuted",
    "C05_panics_exactly",
    "C05_pieces"
   ],
   "note": "False of the code for types with a sized buffer (TPM2B): C05_short_buffer_refuted. Proved: exactly when it panics and when it returns the error, for every type, value and buffer; the contract for all types without sized buffers; and that a short buffer never succeeds."
  },
  {
   "property": "C06",
   "status": "proved",
   "theorems": [
    "C06_length",
    "C06_frame",
    "C06_written_exactly"
   ],
   "note": ""
  },
  {
   "property": "C07",
   "status": "proved",
   "theorems": [
    "C07_truncated"
   ],
   "note": ""
  },
  {
   "property": "C08",
   "status": "proved",
   "theorems": [
    "C08_consumed_only"
   ],
   "note": ""
  },
  {
   "property": "C09",
   "status": "proved",
   "theorems": [
    "C09_invariants",
    "C09_sized_buffer",
    "C09_list"
   ],
   "note": ""
  },
  {
   "property": "C10",
   "status": "proved",
   "theorems": [
    "C10_unique_decodability"
   ],
   "note": ""
  },
  {
   "property": "C11",
   "status": "proved",
   "theorems": [
    "C11_list_count",
    "C11_sized_buffer",
    "C11_selector",
    "C11_response_codes"
   ],
   "note": ""
  },
  {
   "property": "C12",
   "status": "proved",
   "theorems": [
    "C12_size_of",
    "C12_size_of_buffer"
   ],
   "note": ""
  },
  {
   "property": "C13",
   "status": "proved",
   "theorems": [
    "C13_round_trip",
    "C13_round_trip_base"
   ],
   "note": ""
  },
  {
   "property": "C14",
   "status": "partial",
   "theorems": [
    "C14_to_struct_accepts",
    "C14_to_struct_total",
    "C14_strict_refuted",
    "C14_strict_partial",
    "C14_strict_iff"
   ],
   "note": "The property is false of the code: to_struct drops bytes behind the structure (C14_strict_refuted). Proved: exactly what to_struct accepts, that it never panics, and strictness when nothing is left over."
  },
  {
   "property": "C15",
   "status": "proved",
   "theorems": [
    "C15_from_bytes",
    "C15_equality",
    "C15_default"
   ],
   "note": ""
  },
  {
   "property": "C16",
   "status": "proved",
   "theorems": [
    "C16_bounded_list",
    "C16_no_panic",
    "C16_capacities"
   ],
   "note": ""
  },
  {
   "property": "C17",
   "status": "proved",
   "theorems": [
    "C17_marshal",
    "C17_marshal_base"
   ],
   "note": ""
  },
  {
   "property": "C18",
   "status": "partial",
   "theorems": [
    "C18_count_in_range_partial",
    "C18_count_above_panics",
    "C18_public_counts_refuted"
   ],
   "note": "The property is false of the code: C18_public_counts_refuted gives the two public fields. Proved: counts within capacity are safe, counts above it always panic given room."
  },
  {
   "property": "C19",
   "status": "proved",
   "theorems": [
    "C19_nv_index_type",
    "C19_cc_command_index",
    "C19_cc_handles",
    "C19_constructors",
    "C19_disjoint",
    "C19_locality"
   ],
   "note": ""
  },
  {
   "property": "C20",
   "status": "proved",
   "theorems": [
    "C20_nv_index",
    "C20_nv_index_top_byte",
    "C20_auth_session",
    "C20_disjoint",
    "C20_disjoint_sessions"
   ],
   "note": ""
  },
  {
   "property": "C21",
   "status": "partial",
   "theorems": [
    "C21_unmarshal_unchecked",
    "C21_validated_refuted"
   ],
   "note": "The property is false of the code: C21_validated_refuted. Proved: unmarshalling accepts every 32-bit value."
  },
  {
   "property": "C22",
   "status": "proved",
   "theorems": [
    "C22_attest_layout",
    "C22_public_layout",
    "C22_sensitive_layout",
    "C22_selector_consistent",
    "C22_undeclared",
    "C22_members"
   ],
   "note": ""
  },
  {
   "property": "C23",
   "status": "proved",
   "theorems": [
    "C23_try_from",
    "C23_rc_codes",
    "C23_constructors_total",
    "C23_layer_error",
    "C23_common_codes",
    "C23_layer_injective",
    "C23_layer_not_rc"
   ],
   "note": ""
  },
  {
   "property": "C24",
   "status": "partial",
   "theorems": [
    "C24_encoded",
    "C24_parameter_partial",
    "C24_handle_misread",
    "C24_session_misread",
    "C24_decode_refuted",
    "C24_session_high",
    "C24_all_codes",
    "C24_right_iff_parameter",
    "C24_format_zero"
   ],
   "note": "The property is false for handle and session errors (C24_decode_refuted, C24_handle_misread, C24_session_misread). Proved for parameter errors."
  },
  {
   "property": "C25",
   "status": "proved",
   "theorems": [
    "C25_is_warning",
    "C25_not_format_one",
    "C25_named"
   ],
   "note": ""
  },
  {
   "property": "C26",
   "status": "proved",
   "theorems": [
    "C26_marshal",
    "C26_marshal_iff",
    "C26_frame",
    "C26_unmarshal",
    "C26_round_trip"
   ],
   "note": ""
  },
  {
   "property": "C27",
   "status": "proved",
   "theorems": [
    "C27_unmarshal_limits",
    "C27_unmarshal_failure",
    "C27_marshal_limits"
   ],
   "note": ""
  },
  {
   "property": "C28",
   "status": "proved",
   "theorems": [
    "C28_max_digest_size",
    "C28_marshaled_size_max",
    "C28_buffer_suffices",
    "C28_no_waste"
   ],
   "note": ""
  },
  {
   "property": "C29",
   "status": "proved",
   "theorems": [
    "C29_hash_alg_round_trip",
    "C29_try_from",
    "C29_identifiers",
    "C29_ints",
    "C29_algs",
    "C29_bytes",
    "C29_hash_marshal"
   ],
   "note": ""
  },
  {
   "property": "C30",
   "status": "proved",
   "theorems": [
    "C30_frame",
    "C30_recording",
    "C30_fields",
    "C30_run_command"
   ],
   "note": ""
  },
  {
   "property": "C31",
   "status": "proved",
   "theorems": [
    "C31_tuples",
    "C31_seen",
    "C31_area"
   ],
   "note": ""
  },
  {
   "property": "C32",
   "status": "proved",
   "theorems": [
    "C32_error_code"
   ],
   "note": ""
  },
  {
   "property": "C33",
   "status": "proved",
   "theorems": [
    "C33_accepted_iff"
   ],
   "note": ""
  },
  {
   "property": "C34",
   "status": "partial",
   "theorems": [
    "C34_panics_iff_partial",
    "C34_password_total",
    "C34_refuted"
   ],
   "note": "The property is false of the code: C34_refuted (ten zero bytes). Proved: with sessions whose validation does not panic (all of the crate's), the client panics exactly on response code 0 with a size field below 10."
  },
  {
   "property": "C35",
   "status": "partial",
   "theorems": [
    "C35_reported_only_partial",
    "C35_refuted",
    "C35_decoded_partial",
    "C35_rest_left",
    "C35_tcp_leaves_rest",
    "C35_over_tcp"
   ],
   "note": "The property is false of the code: C35_refuted. Proved: the exact dependence (C35_decoded_partial), that it holds whenever at least ten bytes are reported and the size field does not exceed their number, and that it holds without condition for connections that leave the rest of the buffer alone (C35_rest_left), which the TCP connection does over every network (C35_tcp_leaves_rest, C35_over_tcp)."
  },
  {
   "property": "C36",
   "status": "proved",
   "theorems": [
    "C36_equal",
    "C36_default",
    "C36_new",
    "C36_auth_command",
    "C36_validate"
   ],
   "note": ""
  },
  {
   "property": "C37",
   "status": "proved",
   "theorems": [
    "C37_too_long",
    "C37_library_fits",
    "C37_exactly",
    "C37_pieces"
   ],
   "note": ""
  },
  {
   "property": "C38",
   "status": "proved",
   "theorems": [
    "C38_frame",
    "C38_short",
    "C38_refused",
    "C38_too_long"
   ],
   "note": ""
  },
  {
   "property": "C39",
   "status": "proved",
   "theorems": [
    "C39_success",
    "C39_history",
    "C39_answers",
    "C39_connection"
   ],
   "note": ""
  },
  {
   "property": "C40",
   "status": "partial",
   "theorems": [
    "C40_smuggled",
    "C40_refuted",
    "C40_partial",
    "C40_left_partial"
   ],
   "note": "The property is false of the code: C40_refuted, C40_smuggled. Proved: exactly which bytes every answer leaves in the stream, and that a command refused for its own length leaves the stream alone."
  },
  {
   "property": "C41",
   "status": "proved",
   "theorems": [
    "C41_calls",
    "C41_answered",
    "C41_acknowledgements",
    "C41_wrong_acknowledgement",
    "C41_hash_length_wraps"
   ],
   "note": ""
  },
  {
   "property": "C42",
   "status": "proved",
   "theorems": [
    "C42_attempts",
    "C42_seen"
   ],
   "note": ""
  },
  {
   "property": "C43",
   "status": "proved",
   "theorems": [
    "C43_total"
   ],
   "note": ""
  },
  {
   "property": "C44",
   "status": "proved",
   "theorems": [
    "C44_size",
    "C44_code",
    "C44_count"
   ],
   "note": ""
  },
  {
   "property": "C45",
   "status": "proved",
   "theorems": [
    "C45_success",
    "C45_no_room"
   ],
   "note": ""
  },
  {
   "property": "C46",
   "status": "partial",
   "theorems": [
    "C46_agree_partial",
    "C46_refuted"
   ],
   "note": "False for error responses: their first six bytes are not written (C46_refuted, see also C48). Proved: everything else agrees, and success responses agree in all bytes (C46_agree_partial)."
  },
  {
   "property": "C47",
   "status": "proved",
   "theorems": [
    "C47_errors"
   ],
   "note": ""
  },
  {
   "property": "C48",
   "status": "partial",
   "theorems": [
    "C48_tag_and_size_not_set_partial",
    "C48_refuted"
   ],
   "note": "The property is false of the code: C48_refuted. Proved: no error response ever sets tag or size."
  },
  {
   "property": "C49",
   "status": "partial",
   "theorems": [
    "C49_two_short_partial",
    "C49_exactly_partial",
    "C49_refuted"
   ],
   "note": "The property is false of the code: C49_refuted. Proved: exactly what the caller gets, for every generator, server state and count; whenever the client takes the server's response at all, the caller gets two bytes fewer than asked for."
  },
  {
   "property": "C50",
   "status": "proved",
   "theorems": [
    "C50_fill",
    "C50_fill_all",
    "C50_words_via_fill",
    "C50_u64_via_u32",
    "C50_inverse",
    "C50_inverse_fill",
    "C50_fits_server",
    "C50_nothing_else"
   ],
   "note": ""
  },
  {
   "property": "C51",
   "status": "proved",
   "theorems": [
    "C51_history",
    "C51_payloads",
    "C51_interrupted",
    "C51_startup"
   ],
   "note": ""
  },
  {
   "property": "C52",
   "status": "proved",
   "theorems": [
    "C52_unsupported",
    "C52_library"
   ],
   "note": ""
  },
  {
   "property": "C53",
   "status": "proved",
   "theorems": [
    "C53_capability_data"
   ],
   "note": ""
  },
  {
   "property": "C54",
   "status": "partial",
   "theorems": [
    "C54_layout",
    "C54_decoding",
    "C54_complete",
    "C54_attest",
    "C54_public",
    "C54_sensitive",
    "C54_attest_decoding",
    "C54_public_decoding",
    "C54_sensitive_decoding",
    "C54_capacity_partial",
    "C54_list_bounds",
    "C54_selectors_partial",
    "C54_data_capacity_refuted",
    "C54_null_digest_refuted"
   ],
   "note": "Every layout is proved against a separate specification by member name (Part2.v). Two points of the property are false of the code and refuted: TPM2B_DATA has 64 instead of 66 bytes (sizeof(TPMT_HA)), and TPMT_HA does not accept TPM_ALG_NULL. c54_capacity_partial and c54_selectors_partial give the library's actual capacities and selectors, which otherwise are implementation-dependent in Part 2; how the selector lists compare with those of Part 2 is C94."
  },
  {
   "property": "C55",
   "status": "proved",
   "theorems": [
    "C55_connection_error",
    "C55_once"
   ],
   "note": ""
  },
  {
   "property": "C56",
   "status": "partial",
   "theorems": [
    "C56_local_errors_partial",
    "C56_refuted"
   ],
   "note": "The property is false of the code: C56_refuted. Proved: the complete list of error codes a success response can lead to."
  },
  {
   "property": "C57",
   "status": "partial",
   "theorems": [
    "C57_failure_panics_partial",
    "C57_refuted",
    "C57_exactly_when_partial"
   ],
   "note": "The property is false of the code: C57_refuted. Proved: the server panics exactly when a GetRandom it would serve meets a generator that cannot deliver, and never otherwise."
  },
  {
   "property": "C58",
   "status": "partial",
   "theorems": [
    "C58_ignored_partial",
    "C58_ignored_calls_partial",
    "C58_refuted"
   ],
   "note": "The property is false of the code: C58_refuted. Proved: tag and trailing bytes never influence the outcome."
  },
  {
   "property": "C59",
   "status": "proved",
   "theorems": [
    "C59_text",
    "C59_unique",
    "C59_seen"
   ],
   "note": ""
  },
  {
   "property": "C60",
   "status": "partial",
   "theorems": [
    "C60_never_killed",
    "C60_refuted",
    "C60_partial",
    "C60_left_running"
   ],
   "note": "The property is false of the code: C60_refuted; nothing is ever killed by a failed start (C60_never_killed). Proved: if the program cannot be started nothing else happens (C60_partial), and if it can, it is started once and left running whatever happens then (C60_left_running)."
  },
  {
   "property": "C61",
   "status": "proved",
   "theorems": [
    "C61_drop",
    "C61_stop",
    "C61_stop_nicely"
   ],
   "note": ""
  },
  {
   "property": "C62",
   "status": "proved",
   "theorems": [
    "C62_calls",
    "C62_connecting",
    "C62_starting",
    "C62_stopping"
   ],
   "note": ""
  },
  {
   "property": "C63",
   "status": "proved",
   "theorems": [
    "C63_started"
   ],
   "note": ""
  },
  {
   "property": "C64",
   "status": "partial",
   "theorems": [
    "C64_values",
    "C64_complete",
    "C64_tables_functional",
    "C64_distinct",
    "C64_rc_values_partial",
    "C64_sequence_refuted",
    "C64_crates_agree",
    "C64_layout_constants"
   ],
   "note": "False of one constant, TpmRcError::Sequence: C64_sequence_refuted. Proved for all others; four names of the library are spelt differently from the specification and are listed in ConstantsSpec.v with the names they stand for."
  },
  {
   "property": "C65",
   "status": "proved",
   "theorems": [
    "C65_code",
    "C65_complete",
    "C65_sent",
    "C65_sent_sessions",
    "C65_received"
   ],
   "note": ""
  },
  {
   "property": "C66",
   "status": "partial",
   "theorems": [
    "C66_accepts",
    "C66_total_partial",
    "C66_total_refuted"
   ],
   "note": "The macro panics on a length path of several segments (C66_total_refuted). Proved: acceptance is exactly as documented for all declarations, and no panic when length paths are single identifiers."
  },
  {
   "property": "C67",
   "status": "proved",
   "theorems": [
    "C67_unmarshal",
    "C67_marshal",
    "C67_round_trip",
    "C67_library",
    "C67_names",
    "C67_names_once"
   ],
   "note": ""
  },
  {
   "property": "C68",
   "status": "partial",
   "theorems": [
    "C68_sized_partial",
    "C68_listed_refuted",
    "C68_tuple_attributes_ignored",
    "C68_struct_no_impl"
   ],
   "note": "The property is false of the macro: C68_listed_refuted, C68_tuple_attributes_ignored. Proved: exactly when the sized-buffer format is chosen."
  },
  {
   "property": "C69",
   "status": "proved",
   "theorems": [
    "C69_slices",
    "C69_separate",
    "C69_in_place",
    "C69_representation"
   ],
   "note": ""
  },
  {
   "property": "C70",
   "status": "proved",
   "theorems": [
    "C70_understood",
    "C70_connected",
    "C70_command",
    "C70_session",
    "C70_server"
   ],
   "note": ""
  },
  {
   "property": "C71",
   "status": "partial",
   "theorems": [
    "C71_decoded",
    "C71_equality_partial",
    "C71_survives",
    "C71_exact",
    "C71_returns",
    "C71_equality_refuted"
   ],
   "note": "The property is false for public arrays with entries behind their count: C71_equality_refuted. Proved (C71_equality_partial) for all values whose entries behind a public count are left at their default, whichever way they were come by. C71_exact and C71_returns say for all values exactly when two are one on the wire and what comes back."
  },
  {
   "property": "C72",
   "status": "partial",
   "theorems": [
    "C72_documented",
    "C72_taken",
    "C72_total",
    "C72_form_refuted",
    "C72_generated",
    "C72_runs",
    "C72_library"
   ],
   "note": "That the documented form is required is false of the macro: C72_form_refuted. Everything else is proved: C72_taken says exactly what is accepted."
  },
  {
   "property": "C73",
   "status": "proved",
   "theorems": [
    "C73_written",
    "C73_read_unsigned",
    "C73_read_signed",
    "C73_new_written",
    "C73_specifications"
   ],
   "note": ""
  },
  {
   "property": "C74",
   "status": "proved",
   "theorems": [
    "C74_every_byte_string",
    "C74_identifiers",
    "C74_library"
   ],
   "note": ""
  },
  {
   "property": "C75",
   "status": "proved",
   "theorems": [
    "C75_valid",
    "C75_zero_bytes",
    "C75_from_zeros",
    "C75_empty",
    "C75_hash"
   ],
   "note": ""
  },
  {
   "property": "C76",
   "status": "proved",
   "theorems": [
    "C76_size",
    "C76_exists",
    "C76_capacities"
   ],
   "note": ""
  },
  {
   "property": "C77",
   "status": "partial",
   "theorems": [
    "C77_new_to_old",
    "C77_old_to_new_partial",
    "C77_interchange_refuted"
   ],
   "note": "False for SM3_256: C77_interchange_refuted. Proved for all other hashes, in both directions and for all limits."
  },
  {
   "property": "C78",
   "status": "proved",
   "theorems": [
    "C78_confined",
    "C78_result"
   ],
   "note": ""
  },
  {
   "property": "C79",
   "status": "partial",
   "theorems": [
    "C79_final",
    "C79_missing_partial",
    "C79_continue_partial",
    "C79_missing_refuted",
    "C79_decided",
    "C79_oversized"
   ],
   "note": "The second part is false for types with sized buffers: C79_missing_refuted. Proved: finality of all other outcomes for every type; the second part for all types without sized buffers; and for every type that inputs as long as the type is in memory are decided (C79_decided), with an oversized buffer in the input if the outcome is UnexpectedEndOfBuffer (C79_oversized)."
  },
  {
   "property": "C80",
   "status": "proved",
   "theorems": [
    "C80_decimal",
    "C80_distinct",
    "C80_marshalling",
    "C80_names"
   ],
   "note": ""
  },
  {
   "property": "C81",
   "status": "proved",
   "theorems": [
    "C81_understood",
    "C81_connected",
    "C81_call",
    "C81_session",
    "C81_asked"
   ],
   "note": ""
  },
  {
   "property": "C82",
   "status": "partial",
   "theorems": [
    "C82_specified",
    "C82_parameter_size_partial",
    "C82_tag_partial",
    "C82_refuted"
   ],
   "note": "That others are refused is false: C82_refuted. Proved: responses as specified are accepted; the value of the parameter size never matters (C82_parameter_size_partial); what each tag is taken to mean (C82_tag_partial)."
  },
  {
   "property": "C83",
   "status": "partial",
   "theorems": [
    "C83_number_partial",
    "C83_longer_partial",
    "C83_refuted"
   ],
   "note": "False: C83_refuted. Proved: exactly how many bytes every success response carries (C83_number_partial), and that a longer request gets more than 64 bytes or TPM_RC_MEMORY, never 64 bytes (C83_longer_partial)."
  },
  {
   "property": "C84",
   "status": "partial",
   "theorems": [
    "C84_stream_partial",
    "C84_unique",
    "C84_deaf_partial",
    "C84_all_or_nothing_partial",
    "C84_whole_partial",
    "C84_cut_partial",
    "C84_spliced_partial",
    "C84_refuted"
   ],
   "note": "False: C84_refuted. Proved: commands taken whole are dealt with properly (C84_whole_partial, with C70), commands taken in part fail without effect on the TPM (C84_cut_partial), and exactly what the next command makes of the part (C84_spliced_partial); over whole sessions and against any network exactly which commands the TPM executes (C84_stream_partial, C84_unique), none after a cut in the first three bytes (C84_deaf_partial), and those taken if none is cut (C84_all_or_nothing_partial)."
  },
  {
   "property": "C85",
   "status": "proved",
   "theorems": [
    "C85_once",
    "C85_again"
   ],
   "note": ""
  },
  {
   "property": "C86",
   "status": "proved",
   "theorems": [
    "C86_fresh",
    "C86_front"
   ],
   "note": ""
  },
  {
   "property": "C87",
   "status": "proved",
   "theorems": [
    "C87_prefix",
    "C87_as_many"
   ],
   "note": ""
  },
  {
   "property": "C88",
   "status": "proved",
   "theorems": [
    "C88_no_panic",
    "C88_where"
   ],
   "note": ""
  },
  {
   "property": "C89",
   "status": "proved",
   "theorems": [
    "C89_accepted_iff",
    "C89_order",
    "C89_handed",
    "C89_noting",
    "C89_plain"
   ],
   "note": ""
  },
  {
   "property": "C90",
   "status": "proved",
   "theorems": [
    "C90_codec",
    "C90_codec_any",
    "C90_client",
    "C90_server",
    "C90_sixteen_bits",
    "C90_simulator",
    "C90_lists"
   ],
   "note": ""
  },
  {
   "property": "C91",
   "status": "proved",
   "theorems": [
    "C91_connect",
    "C91_connection",
    "C91_simulator",
    "C91_same"
   ],
   "note": ""
  },
  {
   "property": "C92",
   "status": "proved",
   "theorems": [
    "C92_operation",
    "C92_around",
    "C92_history"
   ],
   "note": ""
  },
  {
   "property": "C93",
   "status": "proved",
   "theorems": [
    "C93_same_bytes",
    "C93_library",
    "C93_passwords"
   ],
   "note": ""
  },
  {
   "property": "C94",
   "status": "partial",
   "theorems": [
    "C94_taken_partial",
    "C94_differences_partial",
    "C94_keyed_hash",
    "C94_rsa_key_refuted",
    "C94_missing_refuted"
   ],
   "note": "False in both directions, refuted by c94_rsa_key_refuted (foreign alternatives are taken) and c94_missing_refuted (alternatives of Part 2 are refused). c94_taken_partial and c94_differences_partial give for every union and selector value exactly which are taken and which are the differences; c94_keyed_hash is the one union that agrees with Part 2. Algorithms to which Table 8 gives no value, and TPMT_ASYM_SCHEME (not in v185), are not compared."
  },
  {
   "property": "C95",
   "status": "partial",
   "theorems": [
    "C95_calls",
    "C95_ended",
    "C95_error_codes",
    "C95_no_response_refuted"
   ],
   "note": "Proved: success exactly when the exchange was complete, the result in every case of an incomplete one, and that error codes of the TPM are successes of the transport. False of the code (C95_no_response_refuted): an error is also returned after the whole response was received."
  },
  {
   "property": "C96",
   "status": "partial",
   "theorems": [
    "C96_waits_partial",
    "C96_ports_partial",
    "C96_gives_up",
    "C96_half_written",
    "C96_waits_refuted"
   ],
   "note": "False of the code as stated (C96_waits_refuted: left-over, empty and half-written port files). Proved: on every schedule on which the files appear whole, a simulator that is up by the last attempt is found and a success is a connection to its ports; the bound on the waiting is exact (C96_gives_up); and what a half-written file gives (C96_half_written)."
  },
  {
   "property": "C97",
   "status": "proved",
   "theorems": [
    "C97_ended",
    "C97_no_more",
    "C97_dropped",
    "C97_nicely_then_dropped"
   ],
   "note": ""
  },
  {
   "property": "C98",
   "status": "partial",
   "theorems": [
    "C98_codes_partial",
    "C98_one_piece_partial",
    "C98_buffer_partial",
    "C98_insist_partial",
    "C98_hash_partial",
    "C98_dropped",
    "C98_undisturbed_refuted"
   ],
   "note": "False of the code as stated (C98_undisturbed_refuted: one signal makes a command fail, another leaves a hash sequence without its end). Proved: exactly which calls are disturbed, by which signals, and what has happened then, for every schedule of signals; dropping a simulator is never disturbed."
  },
  {
   "property": "C99",
   "status": "proved",
   "theorems": [
    "C99_sent",
    "C99_regular_iff",
    "C99_ordinary",
    "C99_accepted_iff",
    "C99_questions"
   ],
   "note": ""
  },
  {
   "property": "C100",
   "status": "proved",
   "theorems": [
    "C100_separate",
    "C100_moments",
    "C100_in_place",
    "C100_in_place_moments",
    "C100_served",
    "C100_read_once",
    "C100_in_place_read_once",
    "C100_still"
   ],
   "note": ""
  },
  {
   "property": "C101",
   "status": "proved",
   "theorems": [
    "C101_program",
    "C101_serial",
    "C101_finished",
    "C101_through",
    "C101_server"
   ],
   "note": ""
  },
  {
   "property": "C102",
   "status": "proved",
   "theorems": [
    "C102_program",
    "C102_plan",
    "C102_requests",
    "C102_through",
    "C102_calls",
    "C102_torn"
   ],
   "note": ""
  },
  {
   "property": "C103",
   "status": "proved",
   "theorems": [
    "C103_strangers",
    "C103_through"
   ],
   "note": ""
  },
  {
   "property": "C104",
   "status": "proved",
   "theorems": [
    "C104_little",
    "C104_big",
    "C104_reported"
   ],
   "note": ""
  },
  {
   "property": "C105",
   "status": "proved",
   "theorems": [
    "C105_marshals",
    "C105_unmarshals",
    "C105_strict",
    "C105_total",
    "C105_library",
    "C105_marshal_calls",
    "C105_unmarshal_calls",
    "C105_earlier",
    "C105_claimed"
   ],
   "note": ""
  },
  {
   "property": "C106",
   "status": "proved",
   "theorems": [
    "C106_marshal",
    "C106_apart",
    "C106_round_trip",
    "C106_told",
    "C106_total"
   ],
   "note": ""
  },
  {
   "property": "C107",
   "status": "proved",
   "theorems": [
    "C107_order",
    "C107_result",
    "C107_generator",
    "C107_noting",
    "C107_in_place",
    "C107_slices",
    "C107_slices_in_place"
   ],
   "note": ""
  },
  {
   "property": "C108",
   "status": "proved",
   "theorems": [
    "C108_machine",
    "C108_beginning",
    "C108_gone",
    "C108_stranded"
   ],
   "note": ""
  },
  {
   "property": "C109",
   "status": "proved",
   "theorems": [
    "C109_beginnings",
    "C109_half_done",
    "C109_exactly",
    "C109_suffices",
    "C109_cut_there"
   ],
   "note": ""
  },
  {
   "property": "C110",
   "status": "proved",
   "theorems": [
    "C110_whole_words",
    "C110_many_steps",
    "C110_only_whole_words"
   ],
   "note": ""
  },
  {
   "property": "C111",
   "status": "proved",
   "theorems": [
    "C111_machine",
    "C111_sessions",
    "C111_late",
    "C111_refused",
    "C111_through"
   ],
   "note": ""
  },
  {
   "property": "C112",
   "status": "proved",
   "theorems": [
    "C112_leaving",
    "C112_through"
   ],
   "note": ""
  },
  {
   "property": "C113",
   "status": "proved",
   "theorems": [
    "C113_resent",
    "C113_stream",
    "C113_standing",
    "C113_whole",
    "C113_successful",
    "C113_deaf",
    "C113_measured"
   ],
   "note": ""
  },
  {
   "property": "C114",
   "status": "proved",
   "theorems": [
    "C114_session",
    "C114_short"
   ],
   "note": ""
  },
  {
   "property": "C115",
   "status": "proved",
   "theorems": [
    "C115_peer",
    "C115_session",
    "C115_pieces",
    "C115_more",
    "C115_end"
   ],
   "note": ""
  },
  {
   "property": "C116",
   "status": "proved",
   "theorems": [
    "C116_stream",
    "C116_stop",
    "C116_parts",
    "C116_session",
    "C116_one",
    "C116_unclear"
   ],
   "note": ""
  }
 ]
}