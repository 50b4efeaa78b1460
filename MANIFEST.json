{
 "claims": [
  {
   "property": "C01",
   "status": "proved",
   "theorems": [
    "C01_gtpu_header_roundtrip",
    "C01_gtpu_header_other_combinations",
    "C01_without_sequence_number_refuted",
    "C01_zero_length_refused"
   ],
   "note": "Proved for the combinations the code can carry; for the others the decoded header is characterised exactly and a witness shows the round trip fails."
  },
  {
   "property": "C02",
   "status": "partial",
   "theorems": [
    "C02_optional_fields_follow_flags_refuted",
    "C02_optional_fields_follow_flags_partial"
   ],
   "note": "False when PN or E is set without S (witness). Proved for all buffers with S set or no flag set."
  },
  {
   "property": "C03",
   "status": "proved",
   "theorems": [
    "C03_header_size_is_octets_written",
    "C03_decoded_header_size_inside_packet",
    "C03_decoded_header_size_is_octets_read"
   ],
   "note": "Also: a decoded header never claims to extend past the packet."
  },
  {
   "property": "C04",
   "status": "proved",
   "theorems": [
    "C04_gpdu_payload_roundtrip",
    "C04_gpdu_payload_and_teid_any_header",
    "C04_gpdu_trailing_octets_ignored",
    "C04_gpdu_payload_is_inside_packet",
    "C04_empty_gpdu_refuted"
   ],
   "note": "Length field 0 (empty G-PDU) is refused and 65528 or more crashes; both shown by witness theorems."
  },
  {
   "property": "C05",
   "status": "proved",
   "theorems": [
    "C05_echo_request_roundtrip",
    "C05_end_marker_roundtrip",
    "C05_echo_response_roundtrip",
    "C05_error_indication_roundtrip",
    "C05_supported_ext_headers_roundtrip",
    "C05_minimal_echo_request_refuted"
   ],
   "note": "All five signalling messages. A message with nothing after the 8 mandatory octets does not decode (witness)."
  },
  {
   "property": "C06",
   "status": "proved",
   "theorems": [
    "C06_gtpu_length_field",
    "C06_gtpu_length_field_exact",
    "C06_oversize_wraps"
   ],
   "note": "All six messages, including the silent wrap modulo 65536."
  },
  {
   "property": "C07",
   "status": "proved",
   "theorems": [
    "C07_gtpu_type_checked",
    "C07_gtpu_wrong_type_error"
   ],
   "note": "All six messages."
  },
  {
   "property": "C08",
   "status": "partial",
   "theorems": [
    "C08_truncated_extension_header_refuted",
    "C08_gpdu_short_length_refuted",
    "C08_gpdu_huge_length_refuted",
    "C08_extension_length_overflow_refuted",
    "C08_private_extension_refuted",
    "C08_header_crash_free_partial",
    "C08_gpdu_crash_free_iff_partial",
    "C08_echo_request_end_marker_crash_free_partial",
    "C08_echo_response_crash_free_partial",
    "C08_supported_ext_headers_crash_free_partial",
    "C08_error_indication_crash_free_partial",
    "C08_duplicate_counter_refuted"
   ],
   "note": "False: six crash witnesses. Proved under guards, exact (iff) for G-PDU after the header. Missing: the unguarded statement, which does not hold. For builds with overflow checks the GTP-U packets that stop the program are given exactly, decoder by decoder, in C95."
  },
  {
   "property": "C09",
   "status": "partial",
   "theorems": [
    "C09_ext_walk_terminates_debug_partial",
    "C09_ext_walk_succeeds_iff_chain",
    "C09_ext_walk_succeeds_on_chain",
    "C09_ext_step_at_least_four",
    "C09_error_indication_terminates_debug_partial",
    "C09_ext_walk_release_refuted",
    "C09_error_indication_release_refuted"
   ],
   "note": "Holds in debug builds for all inputs. Release builds loop forever on two witnesses."
  },
  {
   "property": "C10",
   "status": "proved",
   "theorems": [
    "C10_header_roundtrip",
    "C10_header_roundtrip_no_teid",
    "C10_priority_without_teid_refuted"
   ],
   "note": "All headers with TEID, and headers without TEID and priority. A priority without TEID is lost (C10_priority_without_teid_refuted)."
  },
  {
   "property": "C11",
   "status": "proved",
   "theorems": [
    "C11_header_total",
    "C11_header_accepts_iff",
    "C11_header_fields"
   ],
   "note": "Total on every buffer; acceptance characterised exactly (iff)."
  },
  {
   "property": "C12",
   "status": "proved",
   "theorems": [
    "C12_tbcd_roundtrip",
    "C12_tbcd_size",
    "C12_tbcd_drops_non_digits",
    "C12_tbcd_injective"
   ],
   "note": "Any length; also injective, and non-digits are dropped."
  },
  {
   "property": "C13",
   "status": "proved",
   "theorems": [
    "C13_plmn_roundtrip",
    "C13_plmn_large_mnc",
    "C13_plmn_layout"
   ],
   "note": "With the 3GPP nibble layout."
  },
  {
   "property": "C14",
   "status": "proved",
   "theorems": [
    "C14_ie_framing",
    "C14_length_field",
    "C14_length_field_wraps",
    "C14_unknown_framing",
    "C14_trace_reference_refuted"
   ],
   "note": "All kinds but Trace Reference (written with the code of Serving Network, refuted); a Uli is written with the type in its struct."
  },
  {
   "property": "C15",
   "status": "partial",
   "theorems": [
    "C15_gtpc_appends_partial",
    "C15_gtpc_appends_refuted",
    "C15_gtpu_marshal_appends_refuted",
    "C15_gtpu_marshal_appends_partial",
    "C15_append_partial",
    "C15_append_refuted"
   ],
   "note": "False for a non-empty buffer: the length octets are written at offset 2 of the buffer (refuted for every GTPv2 and GTPv1-C message). Proved for GTP-U, GTPv1-C and GTPv2 messages: only those two octets differ."
  },
  {
   "property": "C16",
   "status": "proved",
   "theorems": [
    "C16_ie_roundtrip",
    "C16_dispatched_roundtrip",
    "C16_ie_encoding_injective",
    "C16_ie_encoding_prefix_free",
    "C16_apn_not_ascii_refuted",
    "C16_ecgi_list_empty_refuted",
    "C16_metric_refuted",
    "C16_throttling_refuted",
    "C16_remote_ue_ip_refuted",
    "C16_header_compression_refuted",
    "C16_time_zone_refuted",
    "C16_twan_circuit_id_refuted",
    "C16_empty_value_refuted"
   ],
   "note": "All kinds, on explicit well-formedness conditions (V2Ok*.v, V2DecSpec.v); nine witnesses show values outside them that do not come back."
  },
  {
   "property": "C17",
   "status": "proved",
   "theorems": [
    "C17_ie_length",
    "C17_mei_refuted",
    "C17_stale_length_refuted"
   ],
   "note": "All kinds on well-formed values; witnesses for a MEI of 14 digits and a stale length field."
  },
  {
   "property": "C18",
   "status": "proved",
   "theorems": [
    "C18_ie_list_roundtrip",
    "C18_ie_list_injective",
    "C18_twan_id_refuted",
    "C18_trace_reference_refuted"
   ],
   "note": "Any list; TWAN Identifier and Trace Reference are excluded and refuted."
  },
  {
   "property": "C19",
   "status": "partial",
   "theorems": [
    "C19_decoding_terminates_partial",
    "C19_progress_partial",
    "C19_release_refuted",
    "C19_message_terminates_partial"
   ],
   "note": "Holds in debug builds, for IE lists and messages; in release builds an F-TEID that declares 65532 octets loops for ever (refuted for every number of rounds). Proved for release builds when no IE declares more than 65531 octets."
  },
  {
   "property": "C20",
   "status": "partial",
   "theorems": [
    "C20_decoding_returns_partial",
    "C20_crash_refuted",
    "C20_length_overflow_refuted",
    "C20_message_returns_partial",
    "C20_message_crash_refuted"
   ],
   "note": "False: 28 crash witnesses for IEs in both modes, an overflow family, and for every message with a TEID an 8-octet packet that crashes it. Proved for octets that satisfy a guard at every position read, and for packets whose declared length covers the header."
  },
  {
   "property": "C21",
   "status": "proved",
   "theorems": [
    "C21_dispatch",
    "C21_decoded_kind",
    "C21_twan_id_refuted"
   ],
   "note": "All codes but 169, which is decoded as Action Indication (refuted for every such input)."
  },
  {
   "property": "C22",
   "status": "partial",
   "theorems": [
    "C22_unknown_contents_partial",
    "C22_unknown_type_refuted"
   ],
   "note": "Contents and instance are kept, the type is lost: refuted for every unassigned code but 0."
  },
  {
   "property": "C23",
   "status": "partial",
   "theorems": [
    "C23_declared_length_partial",
    "C23_fixed_kinds_ignore_length",
    "C23_extended_ie_refuted"
   ],
   "note": "Proved for the 66 kinds that size themselves by the length field; the fixed-size kinds ignore it (refuted)."
  },
  {
   "property": "C24",
   "status": "proved",
   "theorems": [
    "C24_container",
    "C24_container_means",
    "C24_container_empty_refuted",
    "C24_container_empty",
    "C24_bearer_context",
    "C24_pdn_connections",
    "C24_load_control",
    "C24_overload_control",
    "C24_remote_ue_context",
    "C24_scef_pdn_connections",
    "C24_v2x_information",
    "C24_pc5_qos_parameters",
    "C24_pgw_change_info",
    "C24_load_control_refuted",
    "C24_bearer_context_refuted",
    "C24_pdn_connections_refuted"
   ],
   "note": "All nine groups, on well-formed members; members that are never sent and lists cut to one element are refuted. C24_container_empty says when the container of a group counts as empty."
  },
  {
   "property": "C25",
   "status": "proved",
   "theorems": [
    "C25_nesting_bounded",
    "C25_nesting_reached"
   ],
   "note": "16384 levels suffice for every input, and the bound is reached: one level per four octets, no check."
  },
  {
   "property": "C26",
   "status": "partial",
   "theorems": [
    "C26_round_trip_partial",
    "C26_round_trip_exact_partial",
    "C26_second_bearer_refuted",
    "C26_twan_refuted",
    "C26_no_teid_refuted"
   ],
   "note": "All 83 messages with every field, for IEs that survive decoding (not TWAN Identifier, Trace Reference) and no second bearer context in Modify Bearer Command; the three exceptions are refuted."
  },
  {
   "property": "C27",
   "status": "partial",
   "theorems": [
    "C27_mandatory_enforced_partial",
    "C27_error_names_missing_partial",
    "C27_error_kind_partial",
    "C27_identification_refuted",
    "C27_misnamed_refuted"
   ],
   "note": "All messages but Identification Response, which is accepted without a Cause (refuted). The error names a missing IE in all but four messages (refuted)."
  },
  {
   "property": "C28",
   "status": "partial",
   "theorems": [
    "C28_first_wins_partial",
    "C28_received_unique",
    "C28_last_wins_refuted",
    "C28_modify_bearer_refuted",
    "C28_identification_cause_partial"
   ],
   "note": "All fields but 13 that keep the last occurrence and the bearer contexts of Modify Bearer Command, which keep one (both refuted for every list); Identification Response keeps a default Cause."
  },
  {
   "property": "C29",
   "status": "proved",
   "theorems": [
    "C29_irrelevant_ies"
   ],
   "note": "All 83 messages, any IE anywhere in the list."
  },
  {
   "property": "C30",
   "status": "proved",
   "theorems": [
    "C30_type_checked"
   ],
   "note": "All 83 messages, every buffer."
  },
  {
   "property": "C31",
   "status": "partial",
   "theorems": [
    "C31_truncated_rejected_partial",
    "C31_trailing_ignored",
    "C31_version_not_supported_refuted"
   ],
   "note": "Truncation: all messages but Version Not Supported, which has no length check (refuted). Trailing octets: proved for all."
  },
  {
   "property": "C32",
   "status": "proved",
   "theorems": [
    "C32_length_field",
    "C32_length_field_wraps"
   ],
   "note": "All 83 messages; the length is written modulo 65536."
  },
  {
   "property": "C33",
   "status": "partial",
   "theorems": [
    "C33_types_distinct_partial",
    "C33_names_distinct",
    "C33_types_refuted"
   ],
   "note": "Two pairs of kinds share a code (refuted with packets accepted as both); all other pairs proved distinct."
  },
  {
   "property": "C34",
   "status": "partial",
   "theorems": [
    "C34_assigned_types_partial",
    "C34_misassigned_refuted"
   ],
   "note": "Three messages have another code (refuted); the other 80 are right for every message value."
  },
  {
   "property": "C35",
   "status": "proved",
   "theorems": [
    "C35_every_ie_written"
   ],
   "note": "All 83 messages."
  },
  {
   "property": "C36",
   "status": "proved",
   "theorems": [
    "C36_decoded_conforms"
   ],
   "note": "All 83 messages, every buffer, both modes."
  },
  {
   "property": "C37",
   "status": "proved",
   "theorems": [
    "C37_header_roundtrip",
    "C37_header_octets"
   ],
   "note": "Every combination of the optional parts; the octets against an independent description."
  },
  {
   "property": "C38",
   "status": "partial",
   "theorems": [
    "C38_header_size",
    "C38_decoded_size_refuted",
    "C38_decoded_size_partial"
   ],
   "note": "Encoded headers: proved. Decoded headers: twelve octets are claimed even when fewer are there (refuted); otherwise inside the packet."
  },
  {
   "property": "C39",
   "status": "proved",
   "theorems": [
    "C39_header_follows_flags",
    "C39_extension_chain",
    "C39_too_short",
    "C39_wrong_version"
   ],
   "note": "Every buffer; the extension header chain exactly (iff) in debug builds."
  },
  {
   "property": "C40",
   "status": "partial",
   "theorems": [
    "C40_element_roundtrip",
    "C40_private_extension_refuted",
    "C40_private_extension_partial"
   ],
   "note": "All kinds but the private extension, which runs to the end of the packet (refuted; proved at the end of the packet)."
  },
  {
   "property": "C41",
   "status": "proved",
   "theorems": [
    "C41_element_octets",
    "C41_element_dispatch"
   ],
   "note": "All 48 kinds, against an arithmetic description of the octets."
  },
  {
   "property": "C42",
   "status": "partial",
   "theorems": [
    "C42_element_size_partial",
    "C42_element_size_refuted"
   ],
   "note": "All kinds but the APN restriction, which always reports 2 for 4 octets (refuted for every value)."
  },
  {
   "property": "C43",
   "status": "partial",
   "theorems": [
    "C43_roundtrip_partial",
    "C43_apn_restriction_refuted",
    "C43_charging_gateway_refuted",
    "C43_version_not_supported",
    "C43_echo_request",
    "C43_echo_response",
    "C43_supported_extension_headers"
   ],
   "note": "Proved for every well-formed message without an APN restriction and without a charging gateway address next to an element with code 148-218; every other well-formed message is rejected by its own decoder (refuted in general)."
  },
  {
   "property": "C44",
   "status": "proved",
   "theorems": [
    "C44_type_checked",
    "C44_type_checked_others"
   ],
   "note": "All 20 messages, every buffer."
  },
  {
   "property": "C45",
   "status": "partial",
   "theorems": [
    "C45_truncated_rejected_partial",
    "C45_truncated_accepted_refuted",
    "C45_trailing_ignored_refuted",
    "C45_echo_length_unchecked_refuted"
   ],
   "note": "Truncation: the 16 messages with a length check, for lengths up to 65527; above, release builds accept (refuted). Trailing octets are decoded as elements (refuted); echo messages do not check (refuted)."
  },
  {
   "property": "C46",
   "status": "partial",
   "theorems": [
    "C46_mandatory_enforced",
    "C46_mandatory_codes_partial",
    "C46_two_addresses_refuted",
    "C46_missing_reported",
    "C46_echo_response",
    "C46_supported_extension_headers"
   ],
   "note": "All messages but Create and Update PDP Context Request, which accept one SGSN address where two are mandatory (refuted)."
  },
  {
   "property": "C47",
   "status": "proved",
   "theorems": [
    "C47_ascending_and_known"
   ],
   "note": "All 16 messages with a list of elements, every buffer."
  },
  {
   "property": "C48",
   "status": "partial",
   "theorems": [
    "C48_occurrences_debug",
    "C48_occurrences_release_partial",
    "C48_wraps_refuted"
   ],
   "note": "Debug builds: proved. Release builds: up to 255 occurrences; the count wraps after that (refuted)."
  },
  {
   "property": "C49",
   "status": "proved",
   "theorems": [
    "C49_accepts_iff",
    "C49_reading_unique"
   ],
   "note": "Exact (iff) in debug builds; C46-C48 give the release direction."
  },
  {
   "property": "C50",
   "status": "partial",
   "theorems": [
    "C50_header_partial",
    "C50_element_partial",
    "C50_message_partial",
    "C50_others_partial",
    "C50_crashes_refuted",
    "C50_debug_overflow_refuted"
   ],
   "note": "False: eight crash witnesses in both modes and two overflows in debug builds. Proved for octets that satisfy a guard at every position."
  },
  {
   "property": "C51",
   "status": "partial",
   "theorems": [
    "C51_header_debug",
    "C51_message_debug",
    "C51_others_debug",
    "C51_message_release_partial",
    "C51_others_release_partial",
    "C51_endless_loop_refuted",
    "C51_endless_extension_refuted"
   ],
   "note": "Debug builds: proved for every packet. Release builds loop for ever on two witnesses (every number of iterations); proved when no length is above 65532 and extension headers form a chain."
  },
  {
   "property": "C52",
   "status": "proved",
   "theorems": [
    "C52_length_field",
    "C52_length_field_others"
   ],
   "note": "All 20 messages."
  },
  {
   "property": "C53",
   "status": "proved",
   "theorems": [
    "C53_type_codes",
    "C53_type_codes_others",
    "C53_types_exclusive"
   ],
   "note": "All 20 messages, every buffer."
  },
  {
   "property": "C54",
   "status": "proved",
   "theorems": [
    "C54_header_octets",
    "C54_gpdu_octets",
    "C54_echo_request_end_marker_octets",
    "C54_echo_response_octets",
    "C54_error_indication_octets",
    "C54_supported_extension_headers_octets"
   ],
   "note": "Header and all six messages against an independent description with arithmetic on octets."
  },
  {
   "property": "C55",
   "status": "proved",
   "theorems": [
    "C55_header_meaning",
    "C55_header_meaning_any_build",
    "C55_header_ends",
    "C55_extension_headers_meaning"
   ],
   "note": "Exact (iff) in debug builds; every described header is read as described in both builds. The release converse fails (C09)."
  },
  {
   "property": "C56",
   "status": "proved",
   "theorems": [
    "C56_error_indication",
    "C56_echo_response",
    "C56_echo_request_end_marker",
    "C56_gpdu",
    "C56_supported_extension_headers"
   ],
   "note": "Exact (iff) for all six messages in debug builds."
  },
  {
   "property": "C57",
   "status": "partial",
   "theorems": [
    "C57_private_extension_type_refuted",
    "C57_private_extension_value_refuted",
    "C57_error_indication_type_partial"
   ],
   "note": "False: in messages other than Error Indication the type octet of a private extension is not looked at, and its value runs to the end of the packet whatever its length. In an Error Indication the type is checked."
  },
  {
   "property": "C58",
   "status": "proved",
   "theorems": [
    "C58_element_octets",
    "C58_trace_reference_value",
    "C58_header_octets",
    "C58_message_octets"
   ],
   "note": "All 146 element kinds, the header and all messages. The type code of a trace reference is wrong (C18); its value octets are right."
  },
  {
   "property": "C59",
   "status": "partial",
   "theorems": [
    "C59_gtpv1_time_zone_refuted",
    "C59_ptmsi_signature_refuted",
    "C59_transaction_identifier_partial",
    "C59_transaction_identifier_refuted",
    "C59_time_zone_refuted",
    "C59_apn_relative_capacity_refuted",
    "C59_home_enb_refuted",
    "C59_home_enb_confused_refuted",
    "C59_fteid_without_address_refuted",
    "C59_epc_timer_refuted"
   ],
   "note": "False for the elements listed; each refutation gives the values for which the octets differ. True of transaction identifiers below 7."
  },
  {
   "property": "C60",
   "status": "partial",
   "theorems": [
    "C60_element_reading",
    "C60_element_kind",
    "C60_header_reading",
    "C60_elements_reading",
    "C60_message_reading",
    "C60_message_reading_any_build",
    "C60_version_not_supported",
    "C60_echo_request",
    "C60_echo_response",
    "C60_supported_headers",
    "C60_declared_length_refuted"
   ],
   "note": "Proved for every element, the header and all messages in debug builds (release builds up to a declared length of 65532; what debug builds accept release builds read the same). The specification follows the code in one point where TS 29.060 differs: elements of a fixed size end there whatever their length says (refutation)."
  },
  {
   "property": "C61",
   "status": "partial",
   "theorems": [
    "C61_exact",
    "C61_element_partial",
    "C61_message_partial",
    "C61_short_number_refuted",
    "C61_name_refuted",
    "C61_extension_refuted",
    "C61_order_refuted"
   ],
   "note": "True of the received elements and messages of resendable / resendable_message; refuted for numbers of less than fifteen digits, names outside ASCII, known extension headers of more than one unit, and a charging gateway address together with later elements (see also C43). For elements the condition is exact (C61_exact)."
  },
  {
   "property": "C62",
   "status": "partial",
   "theorems": [
    "C62_refused_element_partial",
    "C62_other_reports_refuted",
    "C62_surplus_element",
    "C62_invalid_format"
   ],
   "note": "True except for the fields in other_reports, for which the report is wrong or the decoder panics. Elements after the last field of their type are reported like that field (C62_surplus_element)."
  },
  {
   "property": "C63",
   "status": "partial",
   "theorems": [
    "C63_gtpu_builds_agree",
    "C63_gtpv1_builds_agree",
    "C63_gtpv1_same_refuted",
    "C63_gtpv2_builds_agree",
    "C63_gtpv2_sizes_agree",
    "C63_gtpv2_same_refuted"
   ],
   "note": "Proved for every decoder, except that a panicking debug build may hide a packet that a release build accepts, or loops on (refutations here, in C19, C50 and C51)."
  },
  {
   "property": "C64",
   "status": "partial",
   "theorems": [
    "C64_element_reading",
    "C64_sequence_reading",
    "C64_sequence_reading_any_build",
    "C64_one_meaning",
    "C64_header_reading",
    "C64_message_reading",
    "C64_message_reading_any_build",
    "C64_declared_length_refuted",
    "C64_longer_element_refuted",
    "C64_twan_identifier_refuted",
    "C64_text_replaced",
    "C64_text_strict",
    "C64_text_unicode"
   ],
   "note": "Proved for every element, group, sequence and message in debug builds; what debug builds accept release builds read the same. The specification follows the code where TS 29.274 differs: elements of a fixed size end there whatever their length says, and type 169 is read as an action indication (refutations). What text is made of octets that are not UTF-8 is stated on its own (C64_text_replaced, C64_text_strict, C64_text_unicode)."
  },
  {
   "property": "C65",
   "status": "partial",
   "theorems": [
    "C65_exact",
    "C65_exact_groups",
    "C65_exact_received",
    "C65_eps_refuted",
    "C65_same_element",
    "C65_element_survives_partial",
    "C65_element_unchanged_partial",
    "C65_sequence_survives_partial",
    "C65_second_hop_partial",
    "C65_message_survives_partial",
    "C65_names_refuted",
    "C65_no_digits_refuted",
    "C65_csg_identity_refuted",
    "C65_trace_reference_refuted",
    "C65_presence_area_refuted",
    "C65_bearer_transaction_refuted",
    "C65_no_member_refuted",
    "C65_stopping_refuted",
    "C65_unknown_type_refuted"
   ],
   "note": "True of the received elements and messages of sendable (V2ForwardSpec.v), for the header a TEID exactly if the kind of message has one. Refuted for names outside ASCII, identities without digits, CSG identities of more than 27 bits, trace references, unknown types (the type is lost), presence areas, transaction identifiers in bearer contexts, groups left without a member, and MM contexts without capabilities, which stop the next receiver. The condition is exact (C65_exact, C65_exact_groups with groups, C65_exact_received with MM contexts) for all received elements but those of unknown type and EPS contexts in which a capability is missing: one that fails it is not read as the same value, or spoils what follows it. Some of these EPS contexts arrive (C65_eps_refuted). Non-vacuity: C65_exact_example, C65_exact_lost, C65_groups_example, C65_groups_lost, C65_received_example, C65_received_lost."
  },
  {
   "property": "C66",
   "status": "partial",
   "theorems": [
    "C66_element_error_partial",
    "C66_user_location_refuted",
    "C66_unknown_refuted",
    "C66_sequence_error",
    "C66_sequence_error_any_build",
    "C66_sequence_error_justified",
    "C66_sequence_type_refuted",
    "C66_cut_short",
    "C66_header_error",
    "C66_message_error",
    "C66_message_error_any_build",
    "C66_message_error_justified"
   ],
   "note": "The header and the missing elements are exact (iff) but for four messages that report another missing element than the one that is missing; the first element that cannot be read is named, but for the types of `reported` (V2ErrSpec.v): a trace reference is reported as type 83, a TWAN identifier as 168, and a cut-short location and an element of unknown type as type 0 (C66_user_location_refuted, C66_unknown_refuted, C66_sequence_type_refuted)."
  },
  {
   "property": "C67",
   "status": "partial",
   "theorems": [
    "C67_messages_found",
    "C67_one_way",
    "C67_each_is_read",
    "C67_next_offset",
    "C67_same_buffer_refuted"
   ],
   "note": "True of messages encoded into a buffer each and concatenated. Refuted for all messages if the second is encoded into the buffer that holds the first (C67_same_buffer_refuted): the length field of the first is overwritten with that of the whole packet."
  },
  {
   "property": "C68",
   "status": "proved",
   "theorems": [
    "C68_version1_refused",
    "C68_version2_refused",
    "C68_version2_refused_only",
    "C68_accepted_version1",
    "C68_accepted_version2",
    "C68_one_version",
    "C68_sent_version1",
    "C68_sent_version2"
   ],
   "note": "The converse for GTPv2-C (refused for the version only then) is for debug builds and octets below 256."
  },
  {
   "property": "C69",
   "status": "partial",
   "theorems": [
    "C69_default_code",
    "C69_trace_reference_refuted",
    "C69_element_built",
    "C69_default_arrives",
    "C69_default_lost_refuted",
    "C69_default_crashes_refuted",
    "C69_default_header",
    "C69_field_left",
    "C69_message_built_partial",
    "C69_default_message",
    "C69_default_message_refuted",
    "C69_relocation_crash_refuted",
    "C69_bare_header_refuted"
   ],
   "note": "False in full: 22 kinds of element cannot be sent as default() gives them (C69_default_lost_refuted; two of them make the receiver panic, C69_default_crashes_refuted), TraceReference has the code of ServingNetwork (C69_trace_reference_refuted), 21 messages have a field that must be given (C69_default_message_refuted, C69_relocation_crash_refuted), and the header's own default() has no message type, so that a message built on it is always refused (C69_bare_header_refuted). Proved: everything else, for all values of the given fields; ModifyBearerCommand with at most one bearer context, as in C26."
  },
  {
   "property": "C70",
   "status": "partial",
   "theorems": [
    "C70_default_code",
    "C70_element_built",
    "C70_default_arrives",
    "C70_default_refused_refuted",
    "C70_short_number_refuted",
    "C70_default_header",
    "C70_what_arrives",
    "C70_message_built_partial",
    "C70_default_message",
    "C70_default_message_refuted",
    "C70_control_teid_refuted",
    "C70_default_others",
    "C70_echo_request_end_marker_built",
    "C70_echo_response_built",
    "C70_error_indication_built",
    "C70_supported_extension_headers_built",
    "C70_default_u",
    "C70_default_u_refuted",
    "C70_container_refuted",
    "C70_default_extension",
    "C70_default_extension_c"
   ],
   "note": "False in full: nine kinds of GTPv1-C element cannot be sent as default() gives them (C70_default_refused_refuted, C70_short_number_refuted: a default or short MSISDN at the end of a packet makes the receiver panic); five messages have a field that must be given (C70_default_message_refuted); a TEID for control built from Teid::default() has the code of a TEID for data and is lost or received as that (C70_control_teid_refuted); four GTP-U messages are refused as default() gives them (C70_default_u_refuted); a container extension header keeps the length octet of default() whatever its content (C70_container_refuted). Proved: everything else, for all values of the given fields, and C70_what_arrives says exactly which messages are accepted and what the receiver gets, however the fields are filled."
  },
  {
   "property": "C71",
   "status": "proved",
   "theorems": [
    "C71_decoder_crash",
    "C71_safe_kinds",
    "C71_crashing_kinds",
    "C71_message_crash",
    "C71_decoder_exact",
    "C71_message_exact",
    "C71_debug_octets",
    "C71_release_octets",
    "C71_short_octets",
    "C71_debug_packet",
    "C71_short_packet"
   ],
   "note": "An equivalence for every message and for lists of elements: unmarshalling panics if and only if the packet meets the condition written in V2CrashSpec.v and V2LongSpec.v. C71_decoder_exact and C71_message_exact hold for all octets and both build modes without further hypothesis. C71_decoder_crash and C71_message_crash are the simpler statements for packets in which no element declares more than 65531 octets. C71_safe_kinds and C71_crashing_kinds: exactly 28 element kinds crash below that length. There the trace of elements the decoder comes to uses the decoder of a single element for the size of a step. C71_debug_octets, C71_debug_packet (debug builds) and C71_short_octets, C71_short_packet (both builds, no element above 65531 octets) give the trace by the octets alone (V2ReachSpec.v)."
  },
  {
   "property": "C72",
   "status": "proved",
   "theorems": [
    "C72_header_c",
    "C72_header_u",
    "C72_element",
    "C72_message_c",
    "C72_version_not_supported",
    "C72_echo_request_c",
    "C72_echo_response_c",
    "C72_extensions_c",
    "C72_echo_request_u",
    "C72_end_marker",
    "C72_echo_response_u",
    "C72_error_indication",
    "C72_gpdu",
    "C72_extensions_u",
    "C72_plain_gpdu"
   ],
   "note": "An equivalence for every GTPv1-C and GTP-U message decoder in both build modes, with no bound on lengths: panic if and only if the packet meets the condition written in V1CrashSpec.v. C72_element gives the condition of each element type; C72_header_c and C72_header_u that of the extension header chains. C72_plain_gpdu spells the condition out for a G-PDU with the plain header: crash exactly for the lengths above 65527."
  },
  {
   "property": "C73",
   "status": "proved",
   "theorems": [
    "C73_chain_c",
    "C73_chain_u",
    "C73_loop_c",
    "C73_loop_u",
    "C73_header_c",
    "C73_header_u",
    "C73_element",
    "C73_element_ends",
    "C73_message_c",
    "C73_other_c",
    "C73_error_indication",
    "C73_other_u",
    "C73_answer_c",
    "C73_answer_error_indication",
    "C73_answer_gpdu",
    "C73_debug_ends",
    "C73_plain_packet"
   ],
   "note": "An equivalence for every GTPv1-C and GTP-U message decoder in both build modes, with no bound on lengths: the decoder does not end if and only if the packet meets the condition written in V1HangSpec.v. C73_chain_c, C73_chain_u, C73_loop_c and C73_loop_u quantify over the number of iterations: in these cases no number is enough. C73_element gives the elements of size 0. C73_answer_c, C73_answer_error_indication and C73_answer_gpdu combine C72 and C73 into the exact set of packets that get a message or an error. C73_plain_packet spells out the shortest case; C73_debug_ends says that debug builds are free of it."
  },
  {
   "property": "C74",
   "status": "proved",
   "theorems": [
    "C74_decoder_hang",
    "C74_rounds",
    "C74_debug_ends",
    "C74_decoder_answer",
    "C74_message_hang",
    "C74_message_answer",
    "C74_packet_kinds",
    "C74_hanging_kinds",
    "C74_release_octets"
   ],
   "note": "An equivalence for every message and for lists of elements in both build modes, for all octets: the decoder does not end if and only if the packet meets the condition written in V2HangSpec.v. C74_rounds quantifies over the number of rounds: at such an element no number is enough, and only at such an element is the size 0. C74_packet_kinds: in a packet only six element types can be the reason; C74_hanging_kinds: each of them is, with fewer than 20 octets. C74_decoder_answer and C74_message_answer combine C71 and C74 into the exact set of inputs that get elements, a message or an error. C74_debug_ends says that debug builds are free of it."
  },
  {
   "property": "C75",
   "status": "proved",
   "theorems": [
    "C75_order",
    "C75_kinds",
    "C75_swap",
    "C75_any_order",
    "C75_any_sender",
    "C75_vec_order"
   ],
   "note": "C75_order is the property; C75_kinds, C75_swap and C75_any_order are the cases one meets. C75_any_sender is the round trip C26 for any order of the elements, with elements of no field in between (for a modify bearer command with at most one bearer context, C26). C75_vec_order shows that the order within a field does matter, even for elements of different instance."
  },
  {
   "property": "C76",
   "status": "proved",
   "theorems": [
    "C76_gtpu_messages",
    "C76_gtpc_elements",
    "C76_gtpc_messages",
    "C76_element",
    "C76_elements",
    "C76_message",
    "C76_decoded_elements",
    "C76_decoded_message"
   ],
   "note": "C76_element, C76_elements and C76_message say exactly which GTPv2-C values panic; C76_decoded_elements and C76_decoded_message say that nothing a decoder returns does. C76_gtpu_messages, C76_gtpc_elements and C76_gtpc_messages: nothing in GTPv1 panics. Out-of-memory is not modelled."
  },
  {
   "property": "C77",
   "status": "partial",
   "theorems": [
    "C77_fields",
    "C77_result",
    "C77_apart_and_together_partial",
    "C77_doubled",
    "C77_iteration_refuted",
    "C77_iteration_empty",
    "C77_by_instance"
   ],
   "note": "C77_fields and C77_result: what filling a message does, field by field, and when it fails. C77_apart_and_together_partial: a message is its list again; Modify Bearer Command keeps one bearer context (as in C26), so it needs at most one. C77_iteration_refuted: the iterator takes the last element of a fresh copy of the list on every call, so on a message with any element it returns that element for ever and visits no other."
  },
  {
   "property": "C78",
   "status": "partial",
   "theorems": [
    "C78_type_partial",
    "C78_type_refuted",
    "C78_instance_partial",
    "C78_instance_refuted",
    "C78_empty",
    "C78_list",
    "C78_empty_refuted",
    "C78_empty_built_refuted"
   ],
   "note": "C78_type_partial, C78_instance_partial and C78_empty say when the getters tell what the octets say; C78_type_refuted and C78_instance_refuted what they return in all other cases. C78_empty_refuted and C78_empty_built_refuted: empty elements with contents. Of the structures inside elements, get_type() and get_ins() return 0 and are not modelled, is_empty() is in C88; the getters of GTPv1 elements are in C84."
  },
  {
   "property": "C79",
   "status": "partial",
   "theorems": [
    "C79_within_partial",
    "C79_beyond_refuted",
    "C79_every_type"
   ],
   "note": "C79_within_partial proves it for the type codes in reads_within and for unknown types; C79_beyond_refuted refutes it for every code in reads_beyond; C79_every_type: there are no other codes. What follows can still decide whether an element is accepted: a Private Extension without contents is refused at the end of a packet. Lengths above 65531 are left to C63 and C71."
  },
  {
   "property": "C80",
   "status": "partial",
   "theorems": [
    "C80_elements_partial",
    "C80_elements_both",
    "C80_count_unique",
    "C80_size_refuted",
    "C80_linear_refuted",
    "C80_size_bound",
    "C80_size_bound_debug"
   ],
   "note": "C80_elements_partial proves the bound of a quarter on the number of elements for a debug build; C80_elements_both proves the number of octets as a bound for both kinds of build, whenever decoding ends (in a release build an element longer than 65531 octets advances by less than four octets, C74); C80_count_unique: the number is determined by the octets. C80_size_refuted and C80_linear_refuted refute the second sentence in both kinds of build: the octets needed to send the elements again measure what is held. C80_size_bound and C80_size_bound_debug give what holds instead: at most a quadratic in the octets, so the square is the exact order."
  },
  {
   "property": "C81",
   "status": "partial",
   "theorems": [
    "C81_within_partial",
    "C81_fixed",
    "C81_beyond_refuted",
    "C81_private_refuted",
    "C81_gtpu",
    "C81_gtpu_refuted"
   ],
   "note": "C81_fixed (types below 128) and C81_within_partial prove it; C81_beyond_refuted refutes it for every kind and every length below value_size, C81_private_refuted for every private extension. C81_gtpu proves it for recovery, TEID and address of GTP-U; C81_gtpu_refuted refutes it for the private extension of GTP-U and for the list of extension header types in both. Lengths above 65532 are left to C63 and C72."
  },
  {
   "property": "C82",
   "status": "proved",
   "theorems": [
    "C82_distinct_v1",
    "C82_distinct_v2",
    "C82_code"
   ],
   "note": "C82_distinct_v1, C82_distinct_v2: the texts are pairwise different. C82_code: the code in the text. The number is specified by its digits (reads_as), not by the function that prints it."
  },
  {
   "property": "C83",
   "status": "partial",
   "theorems": [
    "C83_unique_u",
    "C83_unique_v1c",
    "C83_sent_v1c",
    "C83_unique_path",
    "C83_sent_u",
    "C83_sent_path",
    "C83_prefix_free_v2",
    "C83_sequence_v2",
    "C83_kind_refuted",
    "C83_sent_v2"
   ],
   "note": "C83_prefix_free_v2, C83_sequence_v2 (GTPv2-C, but for the colliding kinds: C83_kind_refuted), C83_sent_v2 (two GTPv2-C messages of one kind, of any size, also those that do not arrive), C83_unique_v1c (the sixteen table-driven GTPv1-C messages that arrive, C43; the two variants of the update messages share a code), C83_sent_v1c (every well-formed message of these kinds, of any size, also those that their own decoder refuses), C83_unique_path (the other GTPv1-C messages: echo, version not supported, supported extension headers), C83_unique_u (all GTP-U messages), C83_sent_u, C83_sent_path (both without the conditions on the size and on the length in the header, but for which the messages are then the same)."
  },
  {
   "property": "C84",
   "status": "partial",
   "theorems": [
    "C84_received_partial",
    "C84_never_empty",
    "C84_imsi_refuted",
    "C84_imei_refuted",
    "C84_contents_refuted",
    "C84_built_refuted",
    "C84_extension",
    "C84_header",
    "C84_u_extension_refuted",
    "C84_u_teid_refuted",
    "C84_u_recovery_refuted",
    "C84_u_address_refuted",
    "C84_u_private_refuted",
    "C84_u_list",
    "C84_u_list_refuted"
   ],
   "note": "C84_received_partial (GTPv1-C elements but IMSI and IMEI: C84_imsi_refuted, C84_imei_refuted), C84_never_empty, C84_extension, C84_header. C84_contents_refuted: elements of a fixed size that say they are empty have contents, taken from the octets that follow. C84_built_refuted: an element that is built says so according to the length field given, not its contents. GTP-U: the C84_u_ theorems say exactly when each element and extension header says it is empty; those with the suffix _refuted differ from the property."
  },
  {
   "property": "C85",
   "status": "partial",
   "theorems": [
    "C85_understood_partial",
    "C85_accepted_partial",
    "C85_sequence_refuted",
    "C85_refused_refuted",
    "C85_sent",
    "C85_forwarded_refuted"
   ],
   "note": "C85_understood_partial and C85_accepted_partial: packets with a sequence number or without optional fields, every packet GTP-U accepts is accepted by GTPv1-C and understood alike, in both builds. C85_sequence_refuted: on every other packet that both accept, GTP-U reports a sequence number and GTPv1-C none. C85_refused_refuted: three families of packets GTPv1-C accepts and GTP-U refuses. C85_sent: corresponding messages are sent alike if their extension headers are; C85_forwarded_refuted: what was understood alike need not be sent on alike."
  },
  {
   "property": "C86",
   "status": "partial",
   "theorems": [
    "C86_values",
    "C86_spare_partial",
    "C86_taken_refuted",
    "C86_restrictions",
    "C86_gtpv1"
   ],
   "note": "C86_values: both directions for all 19 enumerations of GTPv2-C; C86_restrictions for the two sets of flags; C86_gtpv1 for the two of GTPv1-C, which refuse other octets. C86_spare_partial: the ten enumerations that have a value for octets without meaning. C86_taken_refuted: the other nine, each with the value taken. The kinds of source and target identifications, whose conversions lose the contents, are in C88_kinds."
  },
  {
   "property": "C87",
   "status": "partial",
   "theorems": [
    "C87_gtpv1c",
    "C87_gtpu_partial",
    "C87_gtpu_refuted",
    "C87_gtpv2_partial",
    "C87_gtpv2_refuted",
    "C87_piggyback",
    "C87_piggyback_refuted"
   ],
   "note": "C87_gtpv1c: every GTPv1-C decoder. C87_gtpu_partial: GTP-U packets with S set, or with no flag set; C87_gtpu_refuted shows that the other ones fail. C87_gtpv2_partial: every GTPv2-C decoder, if T is set only where a TEID is expected; C87_gtpv2_refuted shows an echo request that fails. C87_piggyback: what the flag changes; C87_piggyback_refuted: it is accepted on packets with nothing after the message."
  },
  {
   "property": "C88",
   "status": "partial",
   "theorems": [
    "C88_measure_partial",
    "C88_round_trip_partial",
    "C88_choice_refuted",
    "C88_overrun_partial",
    "C88_empty",
    "C88_default_empty",
    "C88_empty_default_refuted",
    "C88_kinds",
    "C88_kind_loses_refuted"
   ],
   "note": "C88_round_trip_partial, C88_measure_partial and C88_overrun_partial are equivalences: they say for which values and octets the claim holds and that it fails for all other ones; C88_choice_refuted: never for target and source types without the kind octet. C88_empty lists the values for which is_empty() holds, C88_default_empty the defaults among them, C88_empty_default_refuted that there are other ones in 20 of 25 structures. C88_kinds, C88_kind_loses_refuted: the conversions between octets and kinds."
  },
  {
   "property": "C89",
   "status": "proved",
   "theorems": [
    "C89_messages",
    "C89_count",
    "C89_others",
    "C89_gtpu",
    "C89_factor"
   ],
   "note": "C89_messages: the sixteen GTPv1-C messages of elements, with the number of elements decoded; C89_count: that number is unique, and in a debug build at most half the octets left; C89_others, C89_gtpu: the other messages; C89_factor: for every k a packet of 4k+12 octets that is sent again with 8k+12. Non-vacuity: C89_meets, C89_name."
  },
  {
   "property": "C90",
   "status": "partial",
   "theorems": [
    "C90_stable_partial",
    "C90_message_stable_partial",
    "C90_bound",
    "C90_doubling_refuted",
    "C90_lost_refuted"
   ],
   "note": "C90_stable_partial: sequences of elements that can be sent on (sendable, C65); C90_message_stable_partial: messages of such elements; C90_bound: one node sends at most 8n^2+208n octets for n received; C90_doubling_refuted: a Local Distinguished Name of octets above 127 doubles at each node; C90_lost_refuted: after sixteen nodes its length field is 0 and the next node cannot read it. Missing: elements that are not sendable but settle after more nodes. Non-vacuity: C90_stable_case, C90_message_case, C65_message_case, C90_doubling_case."
  },
  {
   "property": "C91",
   "status": "partial",
   "theorems": [
    "C91_gpdu",
    "C91_gpdu_refuted",
    "C91_echo_request_end_marker",
    "C91_echo_response",
    "C91_error_indication",
    "C91_supported_extension_headers",
    "C91_gtpv1c_partial",
    "C91_gtpv1c",
    "C91_gtpv1c_accepted",
    "C91_gtpv1c_version_not_supported",
    "C91_gtpv1c_echo_request",
    "C91_gtpv1c_echo_response",
    "C91_gtpv1c_supported_extension_headers",
    "C91_gtpv2_cut_refuted",
    "C91_gtpv2_refuted"
   ],
   "note": "C91_gtpv1c: every GTPv1-C message of elements that is accepted is the one that was sent, whatever its size; C91_gtpv1c_accepted: exactly which are accepted; C91_gtpv1c_partial: the outcome, for messages without the elements that C43 leaves out; C91_gtpv1c_echo_request, C91_gtpv1c_echo_response, C91_gtpv1c_version_not_supported, C91_gtpv1c_supported_extension_headers: the same for the other GTPv1-C messages; C91_echo_request_end_marker, C91_echo_response, C91_error_indication, C91_supported_extension_headers: the same for the GTP-U messages with elements, which arrive whole, are refused (length field 0) or, in two cases, stop a debug build; C91_gpdu: every outcome for a G-PDU of any size; C91_gpdu_refuted: a payload followed by a multiple of 65536 octets is received without them; C91_gtpv2_cut_refuted: so are GTPv2-C messages; C91_gtpv2_refuted: there is such a message for every well-formed one. The property is false of G-PDUs and GTPv2-C, proved for everything else. Non-vacuity: C91_gpdu_case, C91_echo_request_case, C91_gtpv1c_case, C91_gtpv1c_echo_request_case, C91_gtpv2_case."
  },
  {
   "property": "C92",
   "status": "partial",
   "theorems": [
    "C92_element1_refuted",
    "C92_same_octets1_refuted",
    "C92_smuggled1_refuted",
    "C92_contained_partial",
    "C92_element_refuted",
    "C92_smuggled_refuted",
    "C92_same_octets_refuted",
    "C92_replaced_refuted"
   ],
   "note": "C92_contained_partial: lists of elements whose contents fit (as in C18). C92_element_refuted, C92_element1_refuted: a longer element is sent as the shorter one and the remaining octets; C92_smuggled_refuted, C92_smuggled1_refuted: these are received as elements; C92_same_octets_refuted, C92_same_octets1_refuted: the message is sent like another one; C92_replaced_refuted: what the receiver of a GTPv2-C message has instead. Non-vacuity: C92_case (a delete session request from an MME received as from an SGSN), C92_smuggled_case, C92_case1."
  },
  {
   "property": "C93",
   "status": "proved",
   "theorems": [
    "C93_tbcd_decode",
    "C93_tbcd_octets",
    "C93_plmn_short",
    "C93_plmn_octets",
    "C93_plmn_large_refuted",
    "C93_set_msg_length",
    "C93_set_tlv_ie_length",
    "C93_set_tliv_ie_length_refuted",
    "C93_set_length_refuted",
    "C93_check_tliv",
    "C93_check_tlv",
    "C93_check_refuted",
    "C93_from_slice"
   ],
   "note": "The statement says where the functions are right and what they do elsewhere; each theorem covers all arguments of its function. The _refuted theorems are the places where the result is not the one the name promises: C93_plmn_large_refuted (numbers above 999), C93_set_tliv_ie_length_refuted and C93_set_length_refuted (short buffers in release builds), C93_check_refuted (lengths close to 65536). Non-vacuity: C93_tbcd_cases, C93_plmn_cases, C93_plmn_large_case, C93_check_case."
  },
  {
   "property": "C94",
   "status": "proved",
   "theorems": [
    "C94_gpdu",
    "C94_echo_request_end_marker",
    "C94_echo_response",
    "C94_supported_extension_headers",
    "C94_error_indication",
    "C94_any_build",
    "C94_user_data_refuted",
    "C94_every_node_refuted",
    "C94_every_node",
    "C94_echo_length_refuted"
   ],
   "note": "The conditions are exact (if and only if) for messages received and read again by builds with overflow checks; C94_any_build says that under the conditions every build reads the message again. The unconditional statement is false: C94_user_data_refuted (a PDCP PDU number in two units: the next receiver loses user data without an error) and C94_echo_length_refuted. C94_every_node: user data that passes one node passes any number; C94_every_node_refuted: with a PDCP PDU number in two units every node takes four more octets. Non-vacuity: C94_gpdu_case, C94_every_node_case, C94_short_last_case, C94_error_indication_case. Missing: what a release build receives from packets on which a debug build panics."
  },
  {
   "property": "C95",
   "status": "proved",
   "theorems": [
    "C95_header",
    "C95_header_any_build",
    "C95_gpdu",
    "C95_echo_request_end_marker",
    "C95_echo_response",
    "C95_supported_extension_headers",
    "C95_error_indication",
    "C95_no_other_outcome"
   ],
   "note": "The packets of each error and those that stop the program are given by a specification of their own (V1UErrSpec.v), exactly (if and only if), for builds with overflow checks; with C55 and C56, which do the same for the packets that are accepted, this settles the outcome for every packet (C95_no_other_outcome). C95_header_any_build: the header errors are the same in release builds. Non-vacuity: C95_case. Missing: release builds, where wrapped sums make more packets refused or accepted (C09)."
  },
  {
   "property": "C96",
   "status": "proved",
   "theorems": [
    "C96_header",
    "C96_header_any_build",
    "C96_version_not_supported",
    "C96_echo_request",
    "C96_echo_response",
    "C96_supported_extension_headers",
    "C96_table_messages",
    "C96_any_build"
   ],
   "note": "The packets of each error are given by a specification of their own (V1CHdrErrSpec.v), exactly (if and only if), for builds with overflow checks; with C60 (accepted packets) and C72 (packets that stop the program) this settles the outcome for every packet. C96_table_messages holds for all sixteen messages made of elements; the error for an element that cannot be decoded is the one C62 lists for its field. C96_any_build: the same packets get the same errors in release builds. Non-vacuity: C96_header_case, C96_message_cases, C96_table_cases. Missing: release builds, where wrapped sums make more packets refused or accepted (C63). That an element cannot be decoded is said with the element decoder; which octets it accepts is C60."
  },
  {
   "property": "C97",
   "status": "proved",
   "theorems": [
    "C97_sorts",
    "C97_header",
    "C97_type",
    "C97_length",
    "C97_missing",
    "C97_element",
    "C97_element_exact",
    "C97_every_packet",
    "C97_any_build"
   ],
   "note": "If and only if, for builds with overflow checks and every message of the table, against the specification of C66 (V2ErrSpec.v); C66 has one direction and the type that the error carries. A Version Not Supported Indication has no error for what follows its header, and an Identification Response none for a missing element; both are in the statements. C97_element leaves out packets that crash or hang the receiver; C97_element_exact says which these are (C71). C97_every_packet: each packet is a message, or has one of these faults, or crashes the receiver. C97_any_build: the same packets get the same errors in release builds; release builds refuse more only where a build with overflow checks crashes. Non-vacuity: C97_header_case, C97_type_case, C97_length_case, C97_element_case, C97_missing_case."
  },
  {
   "property": "C98",
   "status": "proved",
   "theorems": [
    "C98_table_messages",
    "C98_version_not_supported",
    "C98_echo_request",
    "C98_echo_response",
    "C98_supported_extension_headers",
    "C98_received",
    "C98_gpdu",
    "C98_echo_request_end_marker_u",
    "C98_echo_response_u",
    "C98_supported_extension_headers_u",
    "C98_error_indication",
    "C98_gtpv2",
    "C98_gtpv2_received"
   ],
   "note": "The statements name specifications only, not the decoders: what is a message (C56, C60, C64), what is refused (C95, C96, C66), what is fatal (C72, C71); that the three fit together checks them against each other. C98_received and C98_gtpv2_received connect them with the decoders. Non-vacuity: C98_cases, C98_u_cases, C98_gtpv2_cases. Missing: release builds, which accept, refuse or loop on some of the packets that are fatal here (C63, C51, C74)."
  },
  {
   "property": "C99",
   "status": "proved",
   "theorems": [
    "C99_one_choice",
    "C99_sent",
    "C99_order",
    "C99_received",
    "C99_second_lost"
   ],
   "note": "The specification (chosen: the least of each kind, in order) is in PropsV2Uli.v before the proofs, with an order of its own. C99_one_choice: there is exactly one such choice; C99_sent: its octets are sent; C99_order: lists with the same members give the same octets; C99_received: the receiver has the choice, for values that their fields can hold; C99_second_lost: the greater of two locations of a kind is lost. Uses that sort_by of the standard library returns the elements in order (a stable sort, as documented). Non-vacuity: C99_case."
  },
  {
   "property": "C100",
   "status": "proved",
   "theorems": [
    "C100_v1_element_length",
    "C100_v1_message",
    "C100_v1_type_sent",
    "C100_u_message",
    "C100_u_extension_length_sent",
    "C100_element_length",
    "C100_element_type",
    "C100_element_type_sent",
    "C100_element",
    "C100_message"
   ],
   "note": "C100_element_length, C100_element_type, C100_element_type_sent and C100_message for GTPv2-C; C100_v1_element_length, C100_v1_type_sent and C100_v1_message for GTPv1-C; C100_u_message and C100_u_extension_length_sent for GTPv1-U. The message theorems allow a different length in every element at once, in GTPv2-C also in those inside grouped elements at any depth (C100_element). Only an empty buffer is covered: C15 says what happens in another one. Non-vacuity: C100_case, C100_message_case, C100_v1_case, C100_u_case."
  }
 ]
}