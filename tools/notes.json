{
 "C01": [
  "proved",
  "Proved for the combinations the code can carry; for the others the decoded header is characterised exactly and a witness shows the round trip fails."
 ],
 "C02": [
  "partial",
  "False when PN or E is set without S (witness). Proved for all buffers with S set or no flag set."
 ],
 "C03": [
  "proved",
  "Also: a decoded header never claims to extend past the packet."
 ],
 "C04": [
  "proved",
  "Length field 0 (empty G-PDU) is refused and 65528 or more crashes; both shown by witness theorems."
 ],
 "C05": [
  "proved",
  "All five signalling messages. A message with nothing after the 8 mandatory octets does not decode (witness)."
 ],
 "C06": [
  "proved",
  "All six messages, including the silent wrap modulo 65536."
 ],
 "C07": [
  "proved",
  "All six messages."
 ],
 "C08": [
  "partial",
  "False: six crash witnesses. Proved under guards, exact (iff) for G-PDU after the header. Missing: the unguarded statement, which does not hold. For builds with overflow checks the GTP-U packets that stop the program are given exactly, decoder by decoder, in C95."
 ],
 "C09": [
  "partial",
  "Holds in debug builds for all inputs. Release builds loop forever on two witnesses."
 ],
 "C10": [
  "proved",
  "All headers with TEID, and headers without TEID and priority. A priority without TEID is lost (C10_priority_without_teid_refuted)."
 ],
 "C11": [
  "proved",
  "Total on every buffer; acceptance characterised exactly (iff)."
 ],
 "C12": [
  "proved",
  "Any length; also injective, and non-digits are dropped."
 ],
 "C13": [
  "proved",
  "With the 3GPP nibble layout."
 ],
 "C15": [
  "partial",
  "False for a non-empty buffer: the length octets are written at offset 2 of the buffer (refuted for every GTPv2 and GTPv1-C message). Proved for GTP-U, GTPv1-C and GTPv2 messages: only those two octets differ."
 ],
 "C14": [
  "proved",
  "All kinds but Trace Reference (written with the code of Serving Network, refuted); a Uli is written with the type in its struct."
 ],
 "C16": [
  "proved",
  "All kinds, on explicit well-formedness conditions (V2Ok*.v, V2DecSpec.v); nine witnesses show values outside them that do not come back."
 ],
 "C17": [
  "proved",
  "All kinds on well-formed values; witnesses for a MEI of 14 digits and a stale length field."
 ],
 "C18": [
  "proved",
  "Any list; TWAN Identifier and Trace Reference are excluded and refuted."
 ],
 "C19": [
  "partial",
  "Holds in debug builds, for IE lists and messages; in release builds an F-TEID that declares 65532 octets loops for ever (refuted for every number of rounds). Proved for release builds when no IE declares more than 65531 octets."
 ],
 "C20": [
  "partial",
  "False: 28 crash witnesses for IEs in both modes, an overflow family, and for every message with a TEID an 8-octet packet that crashes it. Proved for octets that satisfy a guard at every position read, and for packets whose declared length covers the header."
 ],
 "C21": [
  "proved",
  "All codes but 169, which is decoded as Action Indication (refuted for every such input)."
 ],
 "C22": [
  "partial",
  "Contents and instance are kept, the type is lost: refuted for every unassigned code but 0."
 ],
 "C23": [
  "partial",
  "Proved for the 66 kinds that size themselves by the length field; the fixed-size kinds ignore it (refuted)."
 ],
 "C24": [
  "proved",
  "All nine groups, on well-formed members; members that are never sent and lists cut to one element are refuted. C24_container_empty says when the container of a group counts as empty."
 ],
 "C25": [
  "proved",
  "16384 levels suffice for every input, and the bound is reached: one level per four octets, no check."
 ],
 "C26": [
  "partial",
  "All 83 messages with every field, for IEs that survive decoding (not TWAN Identifier, Trace Reference) and no second bearer context in Modify Bearer Command; the three exceptions are refuted."
 ],
 "C27": [
  "partial",
  "All messages but Identification Response, which is accepted without a Cause (refuted). The error names a missing IE in all but four messages (refuted)."
 ],
 "C28": [
  "partial",
  "All fields but 13 that keep the last occurrence and the bearer contexts of Modify Bearer Command, which keep one (both refuted for every list); Identification Response keeps a default Cause."
 ],
 "C29": [
  "proved",
  "All 83 messages, any IE anywhere in the list."
 ],
 "C30": [
  "proved",
  "All 83 messages, every buffer."
 ],
 "C31": [
  "partial",
  "Truncation: all messages but Version Not Supported, which has no length check (refuted). Trailing octets: proved for all."
 ],
 "C32": [
  "proved",
  "All 83 messages; the length is written modulo 65536."
 ],
 "C33": [
  "partial",
  "Two pairs of kinds share a code (refuted with packets accepted as both); all other pairs proved distinct."
 ],
 "C34": [
  "partial",
  "Three messages have another code (refuted); the other 80 are right for every message value."
 ],
 "C35": [
  "proved",
  "All 83 messages."
 ],
 "C36": [
  "proved",
  "All 83 messages, every buffer, both modes."
 ],
 "C37": [
  "proved",
  "Every combination of the optional parts; the octets against an independent description."
 ],
 "C38": [
  "partial",
  "Encoded headers: proved. Decoded headers: twelve octets are claimed even when fewer are there (refuted); otherwise inside the packet."
 ],
 "C39": [
  "proved",
  "Every buffer; the extension header chain exactly (iff) in debug builds."
 ],
 "C40": [
  "partial",
  "All kinds but the private extension, which runs to the end of the packet (refuted; proved at the end of the packet)."
 ],
 "C41": [
  "proved",
  "All 48 kinds, against an arithmetic description of the octets."
 ],
 "C42": [
  "partial",
  "All kinds but the APN restriction, which always reports 2 for 4 octets (refuted for every value)."
 ],
 "C43": [
  "partial",
  "Proved for every well-formed message without an APN restriction and without a charging gateway address next to an element with code 148-218; every other well-formed message is rejected by its own decoder (refuted in general)."
 ],
 "C44": [
  "proved",
  "All 20 messages, every buffer."
 ],
 "C45": [
  "partial",
  "Truncation: the 16 messages with a length check, for lengths up to 65527; above, release builds accept (refuted). Trailing octets are decoded as elements (refuted); echo messages do not check (refuted)."
 ],
 "C46": [
  "partial",
  "All messages but Create and Update PDP Context Request, which accept one SGSN address where two are mandatory (refuted)."
 ],
 "C47": [
  "proved",
  "All 16 messages with a list of elements, every buffer."
 ],
 "C48": [
  "partial",
  "Debug builds: proved. Release builds: up to 255 occurrences; the count wraps after that (refuted)."
 ],
 "C49": [
  "proved",
  "Exact (iff) in debug builds; C46-C48 give the release direction."
 ],
 "C50": [
  "partial",
  "False: eight crash witnesses in both modes and two overflows in debug builds. Proved for octets that satisfy a guard at every position."
 ],
 "C51": [
  "partial",
  "Debug builds: proved for every packet. Release builds loop for ever on two witnesses (every number of iterations); proved when no length is above 65532 and extension headers form a chain."
 ],
 "C52": [
  "proved",
  "All 20 messages."
 ],
 "C53": [
  "proved",
  "All 20 messages, every buffer."
 ],
 "C54": [
  "proved",
  "Header and all six messages against an independent description with arithmetic on octets."
 ],
 "C55": [
  "proved",
  "Exact (iff) in debug builds; every described header is read as described in both builds. The release converse fails (C09)."
 ],
 "C56": [
  "proved",
  "Exact (iff) for all six messages in debug builds."
 ],
 "C57": [
  "partial",
  "False: in messages other than Error Indication the type octet of a private extension is not looked at, and its value runs to the end of the packet whatever its length. In an Error Indication the type is checked."
 ],
 "C58": [
  "proved",
  "All 146 element kinds, the header and all messages. The type code of a trace reference is wrong (C18); its value octets are right."
 ],
 "C59": [
  "partial",
  "False for the elements listed; each refutation gives the values for which the octets differ. True of transaction identifiers below 7."
 ],
 "C60": [
  "partial",
  "Proved for every element, the header and all messages in debug builds (release builds up to a declared length of 65532; what debug builds accept release builds read the same). The specification follows the code in one point where TS 29.060 differs: elements of a fixed size end there whatever their length says (refutation)."
 ],
 "C61": [
  "partial",
  "True of the received elements and messages of resendable / resendable_message; refuted for numbers of less than fifteen digits, names outside ASCII, known extension headers of more than one unit, and a charging gateway address together with later elements (see also C43). For elements the condition is exact (C61_exact)."
 ],
 "C62": [
  "partial",
  "True except for the fields in other_reports, for which the report is wrong or the decoder panics. Elements after the last field of their type are reported like that field (C62_surplus_element)."
 ],
 "C63": [
  "partial",
  "Proved for every decoder, except that a panicking debug build may hide a packet that a release build accepts, or loops on (refutations here, in C19, C50 and C51)."
 ],
 "C64": [
  "partial",
  "Proved for every element, group, sequence and message in debug builds; what debug builds accept release builds read the same. The specification follows the code where TS 29.274 differs: elements of a fixed size end there whatever their length says, and type 169 is read as an action indication (refutations). What text is made of octets that are not UTF-8 is stated on its own (C64_text_replaced, C64_text_strict, C64_text_unicode)."
 ],
 "C65": [
  "partial",
  "True of the received elements and messages of sendable (V2ForwardSpec.v), for the header a TEID exactly if the kind of message has one. Refuted for names outside ASCII, identities without digits, CSG identities of more than 27 bits, trace references, unknown types (the type is lost), presence areas, transaction identifiers in bearer contexts, groups left without a member, and MM contexts without capabilities, which stop the next receiver. The condition is exact (C65_exact, C65_exact_groups with groups, C65_exact_received with MM contexts) for all received elements but those of unknown type and EPS contexts in which a capability is missing: one that fails it is not read as the same value, or spoils what follows it. Some of these EPS contexts arrive (C65_eps_refuted). Non-vacuity: C65_exact_example, C65_exact_lost, C65_groups_example, C65_groups_lost, C65_received_example, C65_received_lost."
 ],
 "C66": [
  "partial",
  "The header and the missing elements are exact (iff) but for four messages that report another missing element than the one that is missing; the first element that cannot be read is named, but for the types of `reported` (V2ErrSpec.v): a trace reference is reported as type 83, a TWAN identifier as 168, and a cut-short location and an element of unknown type as type 0 (C66_user_location_refuted, C66_unknown_refuted, C66_sequence_type_refuted)."
 ],
 "C67": [
  "partial",
  "True of messages encoded into a buffer each and concatenated. Refuted for all messages if the second is encoded into the buffer that holds the first (C67_same_buffer_refuted): the length field of the first is overwritten with that of the whole packet."
 ],
 "C68": [
  "proved",
  "The converse for GTPv2-C (refused for the version only then) is for debug builds and octets below 256."
 ],
 "C69": [
  "partial",
  "False in full: 22 kinds of element cannot be sent as default() gives them (C69_default_lost_refuted; two of them make the receiver panic, C69_default_crashes_refuted), TraceReference has the code of ServingNetwork (C69_trace_reference_refuted), 21 messages have a field that must be given (C69_default_message_refuted, C69_relocation_crash_refuted), and the header's own default() has no message type, so that a message built on it is always refused (C69_bare_header_refuted). Proved: everything else, for all values of the given fields; ModifyBearerCommand with at most one bearer context, as in C26."
 ],
 "C70": [
  "partial",
  "False in full: nine kinds of GTPv1-C element cannot be sent as default() gives them (C70_default_refused_refuted, C70_short_number_refuted: a default or short MSISDN at the end of a packet makes the receiver panic); five messages have a field that must be given (C70_default_message_refuted); a TEID for control built from Teid::default() has the code of a TEID for data and is lost or received as that (C70_control_teid_refuted); four GTP-U messages are refused as default() gives them (C70_default_u_refuted); a container extension header keeps the length octet of default() whatever its content (C70_container_refuted). Proved: everything else, for all values of the given fields, and C70_what_arrives says exactly which messages are accepted and what the receiver gets, however the fields are filled."
 ],
 "C71": [
  "proved",
  "An equivalence for every message and for lists of elements: unmarshalling panics if and only if the packet meets the condition written in V2CrashSpec.v and V2LongSpec.v. C71_decoder_exact and C71_message_exact hold for all octets and both build modes without further hypothesis. C71_decoder_crash and C71_message_crash are the simpler statements for packets in which no element declares more than 65531 octets. C71_safe_kinds and C71_crashing_kinds: exactly 28 element kinds crash below that length. There the trace of elements the decoder comes to uses the decoder of a single element for the size of a step. C71_debug_octets, C71_debug_packet (debug builds) and C71_short_octets, C71_short_packet (both builds, no element above 65531 octets) give the trace by the octets alone (V2ReachSpec.v)."
 ],
 "C72": [
  "proved",
  "An equivalence for every GTPv1-C and GTP-U message decoder in both build modes, with no bound on lengths: panic if and only if the packet meets the condition written in V1CrashSpec.v. C72_element gives the condition of each element type; C72_header_c and C72_header_u that of the extension header chains. C72_plain_gpdu spells the condition out for a G-PDU with the plain header: crash exactly for the lengths above 65527."
 ],
 "C73": [
  "proved",
  "An equivalence for every GTPv1-C and GTP-U message decoder in both build modes, with no bound on lengths: the decoder does not end if and only if the packet meets the condition written in V1HangSpec.v. C73_chain_c, C73_chain_u, C73_loop_c and C73_loop_u quantify over the number of iterations: in these cases no number is enough. C73_element gives the elements of size 0. C73_answer_c, C73_answer_error_indication and C73_answer_gpdu combine C72 and C73 into the exact set of packets that get a message or an error. C73_plain_packet spells out the shortest case; C73_debug_ends says that debug builds are free of it."
 ],
 "C74": [
  "proved",
  "An equivalence for every message and for lists of elements in both build modes, for all octets: the decoder does not end if and only if the packet meets the condition written in V2HangSpec.v. C74_rounds quantifies over the number of rounds: at such an element no number is enough, and only at such an element is the size 0. C74_packet_kinds: in a packet only six element types can be the reason; C74_hanging_kinds: each of them is, with fewer than 20 octets. C74_decoder_answer and C74_message_answer combine C71 and C74 into the exact set of inputs that get elements, a message or an error. C74_debug_ends says that debug builds are free of it."
 ],
 "C75": [
  "proved",
  "C75_order is the property; C75_kinds, C75_swap and C75_any_order are the cases one meets. C75_any_sender is the round trip C26 for any order of the elements, with elements of no field in between (for a modify bearer command with at most one bearer context, C26). C75_vec_order shows that the order within a field does matter, even for elements of different instance."
 ],
 "C76": [
  "proved",
  "C76_element, C76_elements and C76_message say exactly which GTPv2-C values panic; C76_decoded_elements and C76_decoded_message say that nothing a decoder returns does. C76_gtpu_messages, C76_gtpc_elements and C76_gtpc_messages: nothing in GTPv1 panics. Out-of-memory is not modelled."
 ],
 "C77": [
  "partial",
  "C77_fields and C77_result: what filling a message does, field by field, and when it fails. C77_apart_and_together_partial: a message is its list again; Modify Bearer Command keeps one bearer context (as in C26), so it needs at most one. C77_iteration_refuted: the iterator takes the last element of a fresh copy of the list on every call, so on a message with any element it returns that element for ever and visits no other."
 ],
 "C78": [
  "partial",
  "C78_type_partial, C78_instance_partial and C78_empty say when the getters tell what the octets say; C78_type_refuted and C78_instance_refuted what they return in all other cases. C78_empty_refuted and C78_empty_built_refuted: empty elements with contents. Of the structures inside elements, get_type() and get_ins() return 0 and are not modelled, is_empty() is in C88; the getters of GTPv1 elements are in C84."
 ],
 "C79": [
  "partial",
  "C79_within_partial proves it for the type codes in reads_within and for unknown types; C79_beyond_refuted refutes it for every code in reads_beyond; C79_every_type: there are no other codes. What follows can still decide whether an element is accepted: a Private Extension without contents is refused at the end of a packet. Lengths above 65531 are left to C63 and C71."
 ],
 "C80": [
  "partial",
  "C80_elements_partial proves the bound of a quarter on the number of elements for a debug build; C80_elements_both proves the number of octets as a bound for both kinds of build, whenever decoding ends (in a release build an element longer than 65531 octets advances by less than four octets, C74); C80_count_unique: the number is determined by the octets. C80_size_refuted and C80_linear_refuted refute the second sentence in both kinds of build: the octets needed to send the elements again measure what is held. C80_size_bound and C80_size_bound_debug give what holds instead: at most a quadratic in the octets, so the square is the exact order."
 ],
 "C81": [
  "partial",
  "C81_fixed (types below 128) and C81_within_partial prove it; C81_beyond_refuted refutes it for every kind and every length below value_size, C81_private_refuted for every private extension. C81_gtpu proves it for recovery, TEID and address of GTP-U; C81_gtpu_refuted refutes it for the private extension of GTP-U and for the list of extension header types in both. Lengths above 65532 are left to C63 and C72."
 ],
 "C82": [
  "proved",
  "C82_distinct_v1, C82_distinct_v2: the texts are pairwise different. C82_code: the code in the text. The number is specified by its digits (reads_as), not by the function that prints it."
 ],
 "C83": [
  "partial",
  "C83_prefix_free_v2, C83_sequence_v2 (GTPv2-C, but for the colliding kinds: C83_kind_refuted), C83_sent_v2 (two GTPv2-C messages of one kind, of any size, also those that do not arrive), C83_unique_v1c (the sixteen table-driven GTPv1-C messages that arrive, C43; the two variants of the update messages share a code), C83_sent_v1c (every well-formed message of these kinds, of any size, also those that their own decoder refuses), C83_unique_path (the other GTPv1-C messages: echo, version not supported, supported extension headers), C83_unique_u (all GTP-U messages), C83_sent_u, C83_sent_path (both without the conditions on the size and on the length in the header, but for which the messages are then the same)."
 ],
 "C84": [
  "partial",
  "C84_received_partial (GTPv1-C elements but IMSI and IMEI: C84_imsi_refuted, C84_imei_refuted), C84_never_empty, C84_extension, C84_header. C84_contents_refuted: elements of a fixed size that say they are empty have contents, taken from the octets that follow. C84_built_refuted: an element that is built says so according to the length field given, not its contents. GTP-U: the C84_u_ theorems say exactly when each element and extension header says it is empty; those with the suffix _refuted differ from the property."
 ],
 "C85": [
  "partial",
  "C85_understood_partial and C85_accepted_partial: packets with a sequence number or without optional fields, every packet GTP-U accepts is accepted by GTPv1-C and understood alike, in both builds. C85_sequence_refuted: on every other packet that both accept, GTP-U reports a sequence number and GTPv1-C none. C85_refused_refuted: three families of packets GTPv1-C accepts and GTP-U refuses. C85_sent: corresponding messages are sent alike if their extension headers are; C85_forwarded_refuted: what was understood alike need not be sent on alike."
 ],
 "C86": [
  "partial",
  "C86_values: both directions for all 19 enumerations of GTPv2-C; C86_restrictions for the two sets of flags; C86_gtpv1 for the two of GTPv1-C, which refuse other octets. C86_spare_partial: the ten enumerations that have a value for octets without meaning. C86_taken_refuted: the other nine, each with the value taken. The kinds of source and target identifications, whose conversions lose the contents, are in C88_kinds."
 ],
 "C87": [
  "partial",
  "C87_gtpv1c: every GTPv1-C decoder. C87_gtpu_partial: GTP-U packets with S set, or with no flag set; C87_gtpu_refuted shows that the other ones fail. C87_gtpv2_partial: every GTPv2-C decoder, if T is set only where a TEID is expected; C87_gtpv2_refuted shows an echo request that fails. C87_piggyback: what the flag changes; C87_piggyback_refuted: it is accepted on packets with nothing after the message."
 ],
 "C88": [
  "partial",
  "C88_round_trip_partial, C88_measure_partial and C88_overrun_partial are equivalences: they say for which values and octets the claim holds and that it fails for all other ones; C88_choice_refuted: never for target and source types without the kind octet. C88_empty lists the values for which is_empty() holds, C88_default_empty the defaults among them, C88_empty_default_refuted that there are other ones in 20 of 25 structures. C88_kinds, C88_kind_loses_refuted: the conversions between octets and kinds."
 ],
 "C89": [
  "proved",
  "C89_messages: the sixteen GTPv1-C messages of elements, with the number of elements decoded; C89_count: that number is unique, and in a debug build at most half the octets left; C89_others, C89_gtpu: the other messages; C89_factor: for every k a packet of 4k+12 octets that is sent again with 8k+12. Non-vacuity: C89_meets, C89_name."
 ],
 "C90": [
  "partial",
  "C90_stable_partial: sequences of elements that can be sent on (sendable, C65); C90_message_stable_partial: messages of such elements; C90_bound: one node sends at most 8n^2+208n octets for n received; C90_doubling_refuted: a Local Distinguished Name of octets above 127 doubles at each node; C90_lost_refuted: after sixteen nodes its length field is 0 and the next node cannot read it. Missing: elements that are not sendable but settle after more nodes. Non-vacuity: C90_stable_case, C90_message_case, C65_message_case, C90_doubling_case."
 ],
 "C91": [
  "partial",
  "C91_gtpv1c: every GTPv1-C message of elements that is accepted is the one that was sent, whatever its size; C91_gtpv1c_accepted: exactly which are accepted; C91_gtpv1c_partial: the outcome, for messages without the elements that C43 leaves out; C91_gtpv1c_echo_request, C91_gtpv1c_echo_response, C91_gtpv1c_version_not_supported, C91_gtpv1c_supported_extension_headers: the same for the other GTPv1-C messages; C91_echo_request_end_marker, C91_echo_response, C91_error_indication, C91_supported_extension_headers: the same for the GTP-U messages with elements, which arrive whole, are refused (length field 0) or, in two cases, stop a debug build; C91_gpdu: every outcome for a G-PDU of any size; C91_gpdu_refuted: a payload followed by a multiple of 65536 octets is received without them; C91_gtpv2_cut_refuted: so are GTPv2-C messages; C91_gtpv2_refuted: there is such a message for every well-formed one. The property is false of G-PDUs and GTPv2-C, proved for everything else. Non-vacuity: C91_gpdu_case, C91_echo_request_case, C91_gtpv1c_case, C91_gtpv1c_echo_request_case, C91_gtpv2_case."
 ],
 "C92": [
  "partial",
  "C92_contained_partial: lists of elements whose contents fit (as in C18). C92_element_refuted, C92_element1_refuted: a longer element is sent as the shorter one and the remaining octets; C92_smuggled_refuted, C92_smuggled1_refuted: these are received as elements; C92_same_octets_refuted, C92_same_octets1_refuted: the message is sent like another one; C92_replaced_refuted: what the receiver of a GTPv2-C message has instead. Non-vacuity: C92_case (a delete session request from an MME received as from an SGSN), C92_smuggled_case, C92_case1."
 ],
 "C93": [
  "proved",
  "The statement says where the functions are right and what they do elsewhere; each theorem covers all arguments of its function. The _refuted theorems are the places where the result is not the one the name promises: C93_plmn_large_refuted (numbers above 999), C93_set_tliv_ie_length_refuted and C93_set_length_refuted (short buffers in release builds), C93_check_refuted (lengths close to 65536). Non-vacuity: C93_tbcd_cases, C93_plmn_cases, C93_plmn_large_case, C93_check_case."
 ],
 "C94": [
  "proved",
  "The conditions are exact (if and only if) for messages received and read again by builds with overflow checks; C94_any_build says that under the conditions every build reads the message again. The unconditional statement is false: C94_user_data_refuted (a PDCP PDU number in two units: the next receiver loses user data without an error) and C94_echo_length_refuted. C94_every_node: user data that passes one node passes any number; C94_every_node_refuted: with a PDCP PDU number in two units every node takes four more octets. Non-vacuity: C94_gpdu_case, C94_every_node_case, C94_short_last_case, C94_error_indication_case. Missing: what a release build receives from packets on which a debug build panics."
 ],
 "C95": [
  "proved",
  "The packets of each error and those that stop the program are given by a specification of their own (V1UErrSpec.v), exactly (if and only if), for builds with overflow checks; with C55 and C56, which do the same for the packets that are accepted, this settles the outcome for every packet (C95_no_other_outcome). C95_header_any_build: the header errors are the same in release builds. Non-vacuity: C95_case. Missing: release builds, where wrapped sums make more packets refused or accepted (C09)."
 ],
 "C96": [
  "proved",
  "The packets of each error are given by a specification of their own (V1CHdrErrSpec.v), exactly (if and only if), for builds with overflow checks; with C60 (accepted packets) and C72 (packets that stop the program) this settles the outcome for every packet. C96_table_messages holds for all sixteen messages made of elements; the error for an element that cannot be decoded is the one C62 lists for its field. C96_any_build: the same packets get the same errors in release builds. Non-vacuity: C96_header_case, C96_message_cases, C96_table_cases. Missing: release builds, where wrapped sums make more packets refused or accepted (C63). That an element cannot be decoded is said with the element decoder; which octets it accepts is C60."
 ],
 "C97": [
  "proved",
  "If and only if, for builds with overflow checks and every message of the table, against the specification of C66 (V2ErrSpec.v); C66 has one direction and the type that the error carries. A Version Not Supported Indication has no error for what follows its header, and an Identification Response none for a missing element; both are in the statements. C97_element leaves out packets that crash or hang the receiver; C97_element_exact says which these are (C71). C97_every_packet: each packet is a message, or has one of these faults, or crashes the receiver. C97_any_build: the same packets get the same errors in release builds; release builds refuse more only where a build with overflow checks crashes. Non-vacuity: C97_header_case, C97_type_case, C97_length_case, C97_element_case, C97_missing_case."
 ],
 "C98": [
  "proved",
  "The statements name specifications only, not the decoders: what is a message (C56, C60, C64), what is refused (C95, C96, C66), what is fatal (C72, C71); that the three fit together checks them against each other. C98_received and C98_gtpv2_received connect them with the decoders. Non-vacuity: C98_cases, C98_u_cases, C98_gtpv2_cases. Missing: release builds, which accept, refuse or loop on some of the packets that are fatal here (C63, C51, C74)."
 ],
 "C99": [
  "proved",
  "The specification (chosen: the least of each kind, in order) is in PropsV2Uli.v before the proofs, with an order of its own. C99_one_choice: there is exactly one such choice; C99_sent: its octets are sent; C99_order: lists with the same members give the same octets; C99_received: the receiver has the choice, for values that their fields can hold; C99_second_lost: the greater of two locations of a kind is lost. Uses that sort_by of the standard library returns the elements in order (a stable sort, as documented). Non-vacuity: C99_case."
 ],
 "C100": [
  "proved",
  "C100_element_length, C100_element_type, C100_element_type_sent and C100_message for GTPv2-C; C100_v1_element_length, C100_v1_type_sent and C100_v1_message for GTPv1-C; C100_u_message and C100_u_extension_length_sent for GTPv1-U. The message theorems allow a different length in every element at once, in GTPv2-C also in those inside grouped elements at any depth (C100_element). Only an empty buffer is covered: C15 says what happens in another one. Non-vacuity: C100_case, C100_message_case, C100_v1_case, C100_u_case."
 ]
}