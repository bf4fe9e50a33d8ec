{
 "claims": [
  {
   "property": "C01",
   "status": "proved",
   "theorems": [
    "C01_cmp_zero_iff_same",
    "C01_cmp_antisymmetric",
    "C01_cmp_transitive",
    "C01_cmp_order"
   ],
   "note": ""
  },
  {
   "property": "C02",
   "status": "proved",
   "theorems": [
    "C02_t8l8v_store_load"
   ],
   "note": ""
  },
  {
   "property": "C03",
   "status": "proved",
   "theorems": [
    "C03_t16l16v_store_load"
   ],
   "note": ""
  },
  {
   "property": "C04",
   "status": "proved",
   "theorems": [
    "C04_put_load_roundtrip",
    "C04_formats"
   ],
   "note": "generic over formats; instances for the stock formats and the two formats of the project's tests"
  },
  {
   "property": "C05",
   "status": "proved",
   "theorems": [
    "C05_load_next_safe_progress",
    "C05_error_is_final",
    "C05_formats",
    "C05_iteration_terminates"
   ],
   "note": ""
  },
  {
   "property": "C06",
   "status": "proved",
   "theorems": [
    "C06_parse_exact_t8l8v",
    "C06_parse_exact_t16l16v",
    "C06_parse_exact_tliv",
    "C06_tliv_header_error"
   ],
   "note": "stock formats"
  },
  {
   "property": "C07",
   "status": "proved",
   "theorems": [
    "C07_peek_agrees_with_next"
   ],
   "note": "peek is a pure function of the loader in the model, as it works on a copy in the code"
  },
  {
   "property": "C08",
   "status": "proved",
   "theorems": [
    "C08_by_tag_unchanged_on_error",
    "C08_by_tag_first",
    "C08_by_tag_no_ub",
    "C08_by_tag_items"
   ],
   "note": ""
  },
  {
   "property": "C09",
   "status": "proved",
   "theorems": [
    "C09_unknown_ies_ignored"
   ],
   "note": ""
  },
  {
   "property": "C10",
   "status": "proved",
   "theorems": [
    "C10_order_irrelevant"
   ],
   "note": ""
  },
  {
   "property": "C11",
   "status": "proved",
   "theorems": [
    "C11_C12_counts",
    "C11_C12_decode_iff",
    "C11_missing_is_EINVAL"
   ],
   "note": ""
  },
  {
   "property": "C12",
   "status": "proved",
   "theorems": [
    "C11_C12_counts",
    "C11_C12_decode_iff",
    "C12_surplus_is_ENOTSUP"
   ],
   "note": "the error code for surplus IEs is proved for tables without repeated tags"
  },
  {
   "property": "C13",
   "status": "proved",
   "theorems": [
    "C13_decode_safe",
    "C13_decode_local",
    "C13_max0_refuted"
   ],
   "note": "needs count_max >= 1 in every repeated entry; without it ordered decoding writes out of bounds (refutation)"
  },
  {
   "property": "C14",
   "status": "proved",
   "theorems": [
    "C14_C15_wire_roundtrip",
    "C14_C15_wire_exists",
    "C14_C15_encode_decode",
    "C14_C17_formats"
   ],
   "note": "for tables without repeated tags"
  },
  {
   "property": "C15",
   "status": "proved",
   "theorems": [
    "C14_C15_wire_roundtrip",
    "C14_C15_wire_exists",
    "C14_C15_encode_decode",
    "C14_C17_formats"
   ],
   "note": "for tables without repeated tags"
  },
  {
   "property": "C16",
   "status": "partial",
   "theorems": [
    "C16_ordered_mandatory_partial",
    "C16_ordered_mandatory_refuted",
    "C16_ordered_count_refuted"
   ],
   "note": "false of the code in general (two refutations); proved for tables without repeated tags and count_mandatory <= 1"
  },
  {
   "property": "C17",
   "status": "partial",
   "theorems": [
    "C17_encode_shape_partial",
    "C17_no_table",
    "C17_oversized_value_refuted",
    "C17_no_room_refuted"
   ],
   "note": "false of the code in general (two refutations); proved under the size conditions"
  },
  {
   "property": "C18",
   "status": "proved",
   "theorems": [
    "C18_ie_roundtrip",
    "C18_encode_decode",
    "C18_ohc_consistent"
   ],
   "note": "all 19 IE types; wire format stated separately in IesSpec.v"
  },
  {
   "property": "C19",
   "status": "partial",
   "theorems": [
    "C19_decoders_safe",
    "C19_act_predef_safe_partial",
    "C19_decoders_safe_refuted"
   ],
   "note": "holds for all IE decoders except Activate Predefined Rules, which reads beyond its value (strlen() on a value that is not NUL terminated): refuted by a counterexample, safe if a NUL follows in memory"
  },
  {
   "property": "C20",
   "status": "partial",
   "theorems": [
    "C20_decoded_in_range",
    "C20_decode_encode_stable",
    "C20_names_partial",
    "C20_fqdn_partial",
    "C20_names_stable_refuted",
    "C20_feature_bits"
   ],
   "note": "range proved for all IEs; the decode/encode/decode clause is false for names whose labels contain '.' or NUL (counterexample), proved for all others"
  },
  {
   "property": "C46",
   "status": "partial",
   "theorems": [
    "C46_f_seid_cmp_antisymmetric_partial",
    "C46_f_seid_cmp_zero_partial",
    "C46_f_seid_cmp_equal_refuted",
    "C46_f_seid_cmp_one_ip_refuted",
    "C46_f_seid_cmp_order_partial",
    "C46_f_seid_cmp_transitive_partial",
    "C46_f_seid_cmp_pointers"
   ],
   "note": "false in general (two counterexamples); proved for F-SEIDs with a common address family"
  },
  {
   "property": "C47",
   "status": "proved",
   "theorems": [
    "C47_bits_set_get",
    "C47_bits_set_bytes",
    "C47_bits_position"
   ],
   "note": ""
  },
  {
   "property": "C48",
   "status": "proved",
   "theorems": [
    "C48_ip_addrs_set_get",
    "C48_get_str",
    "C48_get_str_v6_refuted",
    "C48_f_seid_set"
   ],
   "note": "osmo_pfcp_ip_addrs_get_str() additionally shown not to report the IPv6 address when there is an IPv4 address"
  },
  {
   "property": "C49",
   "status": "partial",
   "theorems": [
    "C49_node_id_roundtrip_partial",
    "C49_node_id_roundtrip_refuted",
    "C49_not_an_address"
   ],
   "note": "false for an uninitialised output argument (counterexample); proved when it has the right family"
  },
  {
   "property": "C21",
   "status": "proved",
   "theorems": [
    "C21_header_roundtrip",
    "C21_header_wire",
    "C21_header_range_refuted"
   ],
   "note": "for every header with in-range fields; out-of-range fields are silently truncated (refuted variant)"
  },
  {
   "property": "C22",
   "status": "proved",
   "theorems": [
    "C22_length_field_exact"
   ],
   "note": ""
  },
  {
   "property": "C23",
   "status": "partial",
   "theorems": [
    "C23_header_decode_partial",
    "C23_header_decode_refuted"
   ],
   "note": "the IE region is inside the message iff the length field covers the header; otherwise the code computes a wrapped 32 bit length: the full statement is false of the code"
  },
  {
   "property": "C24",
   "status": "proved",
   "theorems": [
    "C24_message_roundtrip"
   ],
   "note": "memory behind the message must hold a NUL (C19)"
  },
  {
   "property": "C25",
   "status": "proved",
   "theorems": [
    "C25_bundle_roundtrip"
   ],
   "note": "bundles that fit in the 2048 byte receive buffer with at least one byte to spare (C19)"
  },
  {
   "property": "C26",
   "status": "partial",
   "theorems": [
    "C26_receive_terminates",
    "C26_receive_all",
    "C26_delivered",
    "C26_receive_structure_partial",
    "C26_complete_messages",
    "C26_outcome",
    "C26_short_length_refuted",
    "C26_full_datagram_refuted"
   ],
   "note": "termination for every datagram; isolation for every datagram shorter than the buffer up to a message announcing less than its own header, where the code reads out of bounds (refuted). C26_receive_all gives the possible outcomes of every datagram without exception; C26_delivered: only complete messages are delivered, whatever the datagram."
  },
  {
   "property": "C27",
   "status": "proved",
   "theorems": [
    "C27_seq_nr_range",
    "C27_seq_nr_distinct"
   ],
   "note": ""
  },
  {
   "property": "C28",
   "status": "proved",
   "theorems": [
    "C28_seid_range",
    "C28_seid_distinct"
   ],
   "note": ""
  },
  {
   "property": "C29",
   "status": "proved",
   "theorems": [
    "C29_alloc_tx",
    "C29_is_response"
   ],
   "note": ""
  },
  {
   "property": "C50",
   "status": "partial",
   "theorems": [
    "C50_encode_fits_partial",
    "C50_encode_aborts_refuted"
   ],
   "note": "holds for all types but Session Establishment Request, Modification Request and Response, for which the statement is false of the code"
  },
  {
   "property": "C51",
   "status": "proved",
   "theorems": [
    "C51_encode_keeps_bundle",
    "C51_encode_error_clean_refuted"
   ],
   "note": ""
  },
  {
   "property": "C30",
   "status": "proved",
   "theorems": [
    "C30_bounded_retransmission",
    "C30_exact_spacing",
    "C30_failure_callback"
   ],
   "note": ""
  },
  {
   "property": "C31",
   "status": "proved",
   "theorems": [
    "C31_response_callback_once"
   ],
   "note": ""
  },
  {
   "property": "C32",
   "status": "proved",
   "theorems": [
    "C32_pending_or_resolved",
    "C32_timer_runs",
    "C32_resolved_in_time"
   ],
   "note": ""
  },
  {
   "property": "C33",
   "status": "proved",
   "theorems": [
    "C33_answered_from_cache",
    "C33_new_request_dispatched"
   ],
   "note": ""
  },
  {
   "property": "C34",
   "status": "proved",
   "theorems": [
    "C34_response_kept",
    "C34_response_dropped",
    "C34_response_not_longer"
   ],
   "note": ""
  },
  {
   "property": "C35",
   "status": "proved",
   "theorems": [
    "C35_seq_nrs_distinct",
    "C35_pending_distinct",
    "C35_set_seq_nr_refuted"
   ],
   "note": "distinct as long as fewer than 2^24 numbers are drawn in between and osmo_pfcp_endpoint_set_seq_nr_state() is not used"
  },
  {
   "property": "C36",
   "status": "proved",
   "theorems": [
    "C36_response_completes_one",
    "C36_unmatched_response"
   ],
   "note": ""
  },
  {
   "property": "C37",
   "status": "partial",
   "theorems": [
    "C37_different_seq_nrs_partial",
    "C37_other_peers_request_refuted",
    "C37_other_peers_response_refuted"
   ],
   "note": "false of the code in general: queues are matched by sequence number only. Proved for messages with different sequence numbers"
  },
  {
   "property": "C38",
   "status": "proved",
   "theorems": [
    "C38_heartbeat_answered",
    "C38_heartbeats_in_datagram",
    "C38_response_decodes",
    "C38_heartbeat_request",
    "C38_request_decodes"
   ],
   "note": ""
  },
  {
   "property": "C39",
   "status": "proved",
   "theorems": [
    "C39_recovery_time_stamp",
    "C38_heartbeat_answered",
    "C38_heartbeat_request"
   ],
   "note": ""
  },
  {
   "property": "C40",
   "status": "partial",
   "theorems": [
    "C40_close_partial",
    "C40_close_calls_back_refuted",
    "C40_dispatch_after_close_refuted"
   ],
   "note": "false of the code: close() never calls the response callback of pending requests, and the rest of a datagram being received is still dispatched after it. What close() does is proved"
  },
  {
   "property": "C41",
   "status": "partial",
   "theorems": [
    "C41_freed_at_most_once",
    "C41_freed_after_close_partial",
    "C41_no_undefined_behaviour_partial",
    "C41_callback_closes_refuted",
    "C41_close_in_rx_callback",
    "C41_close_in_timeout_callback",
    "C41_close_in_unmatched",
    "C41_no_retransmission_refuted"
   ],
   "note": "false of the code if a callback for a response or timeout of a pending request closes the endpoint (always a double free) or N1/T1 is 0 (leak); proved otherwise"
  },
  {
   "property": "C52",
   "status": "proved",
   "theorems": [
    "C52_what_is_sent",
    "C52_node_id"
   ],
   "note": ""
  },
  {
   "property": "C53",
   "status": "proved",
   "theorems": [
    "C53_tx_result"
   ],
   "note": ""
  },
  {
   "property": "C42",
   "status": "partial",
   "theorems": [
    "C42_transitions_partial",
    "C42_procedure_permitted",
    "C42_is_associated",
    "C42_no_undefined_behaviour",
    "C42_never_refused_refuted",
    "C42_invalidate_refuted"
   ],
   "note": "Proved for all executions of peer, endpoint, network and application: only transitions of the association procedure, all in the FSM's table; no event refused, no termination; is_associated characterised by the responses received. Missing because false: the FSM layer refuses WAIT_RETRY->WAIT_RETRY after a failed tx (C42_never_refused_refuted), and invalidate_ctx leads to a NULL dereference (C42_invalidate_refuted)."
  },
  {
   "property": "C43",
   "status": "proved",
   "theorems": [
    "C43_callback",
    "C43_callback_any",
    "C43_associated_for_ever"
   ],
   "note": "Callback set before the first association and not replaced. It is called exactly once, with true, when associated; the code never calls it with false because association is never lost."
  },
  {
   "property": "C44",
   "status": "partial",
   "theorems": [
    "C44_always_trying",
    "C44_request_pending_partial",
    "C44_waiting_is_bounded_partial",
    "C44_attempt_sends",
    "C44_request_bytes",
    "C44_close_refuted"
   ],
   "note": "The request is pending in the endpoint as long as the endpoint is not closed after the first attempt (and N1, T1 are not 0); after a close the claim is false (C44_close_refuted: the peer is stuck for ever)."
  },
  {
   "property": "C45",
   "status": "partial",
   "theorems": [
    "C45_use_counts_partial",
    "C45_no_abort",
    "C45_zero_after_close",
    "C45_invalidate_refuted"
   ],
   "note": "For all histories without osmo_pfcp_endpoint_invalidate_ctx(); with it the count is wrong (C45_invalidate_refuted)."
  },
  {
   "property": "C54",
   "status": "proved",
   "theorems": [
    "C54_message_grammar",
    "C54_unsupported_type"
   ],
   "note": ""
  },
  {
   "property": "C55",
   "status": "proved",
   "theorems": [
    "C55_ie_grammar",
    "C55_extendable"
   ],
   "note": ""
  },
  {
   "property": "C56",
   "status": "proved",
   "theorems": [
    "C56_struct_text",
    "C56_struct_length",
    "C56_no_overflow",
    "C56_no_table",
    "C56_tag_inst",
    "C56_numbers"
   ],
   "note": ""
  },
  {
   "property": "C57",
   "status": "partial",
   "theorems": [
    "C57_ie_text",
    "C57_message_text",
    "C57_message_no_overflow",
    "C57_unsupported_type",
    "C57_log_info_text",
    "C57_bits_faithful",
    "C57_ue_ip_length_refuted",
    "C57_message_length_partial",
    "C57_ue_ip_choose_refuted"
   ],
   "note": "Text and safety hold for all IEs and messages. Missing because false: the length for a NULL buffer if a UE IP Address has flags; CHV6 is printed as chv4, after a stray comma."
  },
  {
   "property": "C58",
   "status": "partial",
   "theorems": [
    "C58_c_string",
    "C58_message_c",
    "C58_empty_struct_refuted"
   ],
   "note": "For all texts that are not empty; for an empty one the claim is false (C58_empty_struct_refuted)."
  },
  {
   "property": "C59",
   "status": "partial",
   "theorems": [
    "C59_decode_into_memory",
    "C59_decode_memory_safe",
    "C59_no_table",
    "C59_any_output_struct_refuted",
    "C59_zero_pitch_not_refused_refuted"
   ],
   "note": "Proved for zeroed structs and valid layouts; false for other output structs and zero pitch (_refuted)."
  },
  {
   "property": "C60",
   "status": "proved",
   "theorems": [
    "C60_encode_from_memory",
    "C60_print_from_memory",
    "C60_only_values_matter",
    "C60_no_table"
   ],
   "note": ""
  },
  {
   "property": "C61",
   "status": "proved",
   "theorems": [
    "C61_memory_roundtrip",
    "C61_decoded_is_encodable"
   ],
   "note": ""
  },
  {
   "property": "C62",
   "status": "proved",
   "theorems": [
    "C62_tables_mean_definitions",
    "C62_other_types",
    "C62_constant_names",
    "C62_type_names"
   ],
   "note": ""
  },
  {
   "property": "C63",
   "status": "proved",
   "theorems": [
    "C63_generated_decode",
    "C63_generated_encode",
    "C63_generated_print"
   ],
   "note": "The union must not be empty (at least one message has an IE)."
  },
  {
   "property": "C64",
   "status": "proved",
   "theorems": [
    "C64_well_named_accepted"
   ],
   "note": ""
  },
  {
   "property": "C65",
   "status": "partial",
   "theorems": [
    "C65_conflicts_rejected_partial",
    "C65_same_type_refuted",
    "C65_same_message_type_refuted"
   ],
   "note": "Names of groups, messages and members are checked; equal C types with different members and message names that differ in case are not (_refuted)."
  },
  {
   "property": "C66",
   "status": "proved",
   "theorems": [
    "C66_pfcp_tables",
    "C66_functions"
   ],
   "note": ""
  },
  {
   "property": "C67",
   "status": "proved",
   "theorems": [
    "C67_pfcp_decode",
    "C67_unknown_type",
    "C67_arrays_suffice"
   ],
   "note": "Hypothesis: a NUL byte lies somewhere behind the datagram in memory (C19, C26)."
  },
  {
   "property": "C68",
   "status": "proved",
   "theorems": [
    "C68_pfcp_encode",
    "C68_pfcp_print",
    "C68_pfcp_roundtrip"
   ],
   "note": "Round trip: a NUL byte lies somewhere behind the datagram in memory."
  },
  {
   "property": "C69",
   "status": "proved",
   "theorems": [
    "C69_dispatch_integrity",
    "C69_response_integrity"
   ],
   "note": ""
  },
  {
   "property": "C70",
   "status": "proved",
   "theorems": [
    "C70_no_undefined_behaviour",
    "C70_every_datagram_decodes"
   ],
   "note": ""
  },
  {
   "property": "C71",
   "status": "proved",
   "theorems": [
    "C71_at_most_once",
    "C71_slow_answer_refuted"
   ],
   "note": "The hypotheses are those of the property; the refuted theorem shows that answering at once is needed."
  },
  {
   "property": "C72",
   "status": "proved",
   "theorems": [
    "C72_answer_origin"
   ],
   "note": ""
  },
  {
   "property": "C73",
   "status": "partial",
   "theorems": [
    "C73_two_clients_refuted",
    "C73_request_delivered_partial"
   ],
   "note": "The full property is false of the code: responses are found by sequence number alone."
  },
  {
   "property": "C74",
   "status": "proved",
   "theorems": [
    "C74_answer_delivered"
   ],
   "note": ""
  },
  {
   "property": "C75",
   "status": "proved",
   "theorems": [
    "C75_association_is_mutual"
   ],
   "note": ""
  },
  {
   "property": "C76",
   "status": "proved",
   "theorems": [
    "C76_names_differ",
    "C76_every_enumerator",
    "C76_other_values",
    "C76_text_is_identifier",
    "C76_coded_have_names",
    "C76_text_identifies_header",
    "C76_same_enumerators",
    "C76_numbers"
   ],
   "note": ""
  },
  {
   "property": "C77",
   "status": "proved",
   "theorems": [
    "C77_results_unchanged",
    "C77_decode_reports",
    "C77_encode_reports",
    "C77_missing_mandatory"
   ],
   "note": ""
  },
  {
   "property": "C78",
   "status": "partial",
   "theorems": [
    "C77_decode_reports",
    "C77_encode_reports",
    "C78_pfcp_partial",
    "C78_ordered_refuted",
    "C78_unknown_type_refuted"
   ],
   "note": "As stated it is false: ordered decoding returns without report when a repeated IE is followed by a broken TLV, and a message type without table is refused silently. Proved for unordered decoding and for encoding with any table (so for every supported PFCP message type)."
  },
  {
   "property": "C79",
   "status": "partial",
   "theorems": [
    "C79_received_is_valid",
    "C79_relay_partial",
    "C79_relay_size_partial",
    "C79_names_refuted",
    "C79_size_refuted"
   ],
   "note": "As stated it is false: names with a dot inside a label change, and a message of 1985 octets can need more than 2048 octets when encoded again, which aborts the process. Proved for messages with valid names: of all types but two without restriction, of those two (Session Establishment and Modification Requests) if the message and one octet per Apply Action IE in it are together less than 2048 octets (witnesses show that 2049 is too much), so always up to 2015 and 1983 octets."
  },
  {
   "property": "C80",
   "status": "proved",
   "theorems": [
    "C80_association_completes"
   ],
   "note": ""
  },
  {
   "property": "C81",
   "status": "partial",
   "theorems": [
    "C81_ordered_decode_iff_partial",
    "C81_malformed_data_refuted"
   ],
   "note": "Exact for data that is a sequence of whole IEs. In full the property is false of the code: data that breaks off inside an IE is accepted when the broken IE comes behind the last one looked for (C81_malformed_data_refuted)."
  },
  {
   "property": "C82",
   "status": "proved",
   "theorems": [
    "C82_is_busy"
   ],
   "note": ""
  },
  {
   "property": "C83",
   "status": "proved",
   "theorems": [
    "C83_round_trip"
   ],
   "note": ""
  },
  {
   "property": "C84",
   "status": "proved",
   "theorems": [
    "C84_data_reads",
    "C84_ordered_decode_iff"
   ],
   "note": ""
  },
  {
   "property": "C85",
   "status": "proved",
   "theorems": [
    "C85_unordered_decode_iff"
   ],
   "note": ""
  },
  {
   "property": "C86",
   "status": "partial",
   "theorems": [
    "C86_wire_roundtrip",
    "C86_encode_decode",
    "C86_unordered_tells",
    "C86_ordered_tells_refuted"
   ],
   "note": "Proved, except that structs that come from decoding in table order are not always of this kind: unknown IEs keep IEs with the same tag apart and are not encoded again (C86_ordered_tells_refuted)."
  },
  {
   "property": "C87",
   "status": "proved",
   "theorems": [
    "C87_first_error",
    "C87_ie_errno",
    "C87_message_errno"
   ],
   "note": ""
  },
  {
   "property": "C88",
   "status": "partial",
   "theorems": [
    "C88_header_error",
    "C88_header_fields_partial",
    "C88_priority_refuted"
   ],
   "note": "Everything but the priority: it is read from the low four bits of its octet, TS 29.244 has it in the high four bits (C88_priority_refuted)."
  },
  {
   "property": "C89",
   "status": "proved",
   "theorems": [
    "C89_ie_value",
    "C89_message_body"
   ],
   "note": ""
  },
  {
   "property": "C90",
   "status": "proved",
   "theorems": [
    "C90_message",
    "C90_datagram"
   ],
   "note": ""
  },
  {
   "property": "C91",
   "status": "proved",
   "theorems": [
    "C91_ie_octets",
    "C91_message_octets",
    "C91_labels"
   ],
   "note": ""
  },
  {
   "property": "C92",
   "status": "proved",
   "theorems": [
    "C92_encode_exact",
    "C92_unsupported_type"
   ],
   "note": ""
  },
  {
   "property": "C93",
   "status": "proved",
   "theorems": [
    "C93_sent_means",
    "C93_mandatory_refuted",
    "C93_node_id_refuted"
   ],
   "note": "The refuted theorems show that the validity hypothesis is needed: encoding itself does not check it."
  },
  {
   "property": "C94",
   "status": "proved",
   "theorems": [
    "C94_transmissions",
    "C94_timer_due",
    "C94_exact_spacing",
    "C94_failure_callback",
    "C94_once",
    "C94_pending_or_resolved",
    "C94_timer_runs",
    "C94_resolved_in_time",
    "C94_response_kept",
    "C94_answered_from_cache",
    "C94_new_request_dispatched",
    "C94_response_completes_one",
    "C94_seq_nrs_distinct",
    "C94_no_undefined_behaviour"
   ],
   "note": "Timers change between events only (one thread, no callback changes them)."
  },
  {
   "property": "C95",
   "status": "proved",
   "theorems": [
    "C95_sent_message",
    "C95_sent_unqueued"
   ],
   "note": ""
  },
  {
   "property": "C96",
   "status": "proved",
   "theorems": [
    "C96_received",
    "C96_response_received"
   ],
   "note": "Histories of the model end at undefined behaviour (C26, C41), so nothing is claimed beyond it."
  },
  {
   "property": "C97",
   "status": "proved",
   "theorems": [
    "C97_after_set_seq_nr",
    "C97_from_creation"
   ],
   "note": ""
  },
  {
   "property": "C98",
   "status": "partial",
   "theorems": [
    "C98_any_room_partial",
    "C98_success_partial",
    "C98_success_refuted"
   ],
   "note": "The full statement is false of the code (C98_success_refuted); true when four octets remain: exact characterisation."
  },
  {
   "property": "C99",
   "status": "proved",
   "theorems": [
    "C99_ordered_error",
    "C99_unordered_error"
   ],
   "note": ""
  },
  {
   "property": "C100",
   "status": "proved",
   "theorems": [
    "C100_without_free",
    "C100_as_close",
    "C100_all_released",
    "C100_after_free",
    "C100_main_loop",
    "C100_receiving",
    "C100_only_in_rx_cb",
    "C100_in_rx_cb",
    "C100_in_ctx_cb_refuted",
    "C100_in_resp_cb_refuted",
    "C100_in_timeout_cb_refuted",
    "C100_timer_never",
    "C100_in_failed_tx",
    "C100_in_tx_without_wait"
   ],
   "note": ""
  },
  {
   "property": "C101",
   "status": "partial",
   "theorems": [
    "C101_safe",
    "C101_use_counts_safe",
    "C101_invalidate_safe_partial",
    "C101_counts_exact",
    "C101_counts_enough",
    "C101_invalidate",
    "C101_mixed",
    "C101_failed_tx_refuted",
    "C101_received_refuted"
   ],
   "note": "That osmo_pfcp_endpoint_invalidate_ctx() alone prevents use after free is false of the code (two witnesses); proved with the further calls it takes."
  },
  {
   "property": "C102",
   "status": "partial",
   "theorems": [
    "C102_text_means_declarations",
    "C102_accepted_partial",
    "C102_tables",
    "C102_other_types",
    "C102_functions",
    "C102_usage",
    "C102_accepted_refuted",
    "C102_pfcp"
   ],
   "note": "That all definitions in which every name means one thing are accepted is false of the text (C102_accepted_refuted: names to_str_x); proved for all others."
  },
  {
   "property": "C103",
   "status": "proved",
   "theorems": [
    "C103_decode",
    "C103_encode",
    "C103_print",
    "C103_pfcp_decode",
    "C103_pfcp_encode",
    "C103_pfcp_print"
   ],
   "note": ""
  },
  {
   "property": "C104",
   "status": "proved",
   "theorems": [
    "C104_decode",
    "C104_bounds",
    "C104_host",
    "C104_message"
   ],
   "note": ""
  },
  {
   "property": "C105",
   "status": "partial",
   "theorems": [
    "C105_reused",
    "C105_reused_present",
    "C105_removal_partial",
    "C105_removal_refuted"
   ],
   "note": "False of the code for Outer Header Removal of one octet (C105_removal_refuted, with what holds in C105_removal_partial); proved for all other IEs."
  },
  {
   "property": "C106",
   "status": "proved",
   "theorems": [
    "C106_encode",
    "C106_octets",
    "C106_unended",
    "C106_unended_refuted",
    "C106_forward"
   ],
   "note": "Without the NUL the encoders of three IEs read behind the array (C106_unended; a literal witness in C106_unended_refuted)."
  },
  {
   "property": "C107",
   "status": "proved",
   "theorems": [
    "C107_print",
    "C107_value",
    "C107_decoded"
   ],
   "note": ""
  },
  {
   "property": "C108",
   "status": "proved",
   "theorems": [
    "C108_forward",
    "C108_decode",
    "C108_encode",
    "C108_print",
    "C108_roundtrip"
   ],
   "note": ""
  },
  {
   "property": "C109",
   "status": "proved",
   "theorems": [
    "C109_ip_addrs_set",
    "C109_ip_addrs_get",
    "C109_f_seid_cmp",
    "C109_f_seid_set",
    "C109_f_seid_set_own",
    "C109_f_seid_set_own_refuted",
    "C109_node_id_from",
    "C109_node_id_to",
    "C109_bits_set",
    "C109_bits_get",
    "C109_bits_range_refuted"
   ],
   "note": "That f_seid_set() works with an address of the same F-SEID, and that bit positions are checked, is false of the code (the two _refuted theorems); the statement of C109 says so."
  },
  {
   "property": "C110",
   "status": "proved",
   "theorems": [
    "C110_encode",
    "C110_zeroed",
    "C110_byte_order",
    "C110_decode",
    "C110_exchange",
    "C110_message_exchange",
    "C110_pure_refuted"
   ],
   "note": "That the octets sent are a function of the message and of the contents of the msgb is false of the code for memory that is not zero (C110_pure_refuted); the statement of C110 says so."
  },
  {
   "property": "C111",
   "status": "proved",
   "theorems": [
    "C111_exchange",
    "C111_encode",
    "C111_receive",
    "C111_receive_prefix"
   ],
   "note": "Both hosts on any ABI. Datagrams with a message whose length does not cover its header, and full 2048 byte datagrams, are outside of C111_receive: there the code reads out of bounds (C23, C26)."
  },
  {
   "property": "C112",
   "status": "proved",
   "theorems": [
    "C112_safe",
    "C112_own_descriptors",
    "C112_one_socket",
    "C112_no_leak",
    "C112_close",
    "C112_free",
    "C112_bind",
    "C112_select_loop",
    "C112_receive",
    "C112_register_failure_refuted",
    "C112_context_refuted",
    "C112_endpoint_model"
   ],
   "note": "That it also holds when the registration with the select loop fails, or when an endpoint with a socket is released with its talloc context, is false of the code (the two _refuted theorems); the statement of C112 says so. What osmo_sock_init_osa_ofd() leaves in ofd->fd when registration fails is libosmocore's, as described in SockModel.v."
  }
 ]
}