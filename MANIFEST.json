{
 "claims": [
  {
   "property": "C01",
   "status": "proved",
   "theorems": [
    "C01_length_roundtrip",
    "C01_length_legal",
    "C01_length_interop"
   ],
   "note": ""
  },
  {
   "property": "C02",
   "status": "proved",
   "theorems": [
    "C02_integer_decode",
    "C02_integer_decode_empty"
   ],
   "note": ""
  },
  {
   "property": "C03",
   "status": "proved",
   "theorems": [
    "C03_integer_roundtrip_domain",
    "C03_integer_bad_value",
    "C03_integer_bad_32bit",
    "C03_integer_shortest",
    "C03_integer_encode_total",
    "C03_integer_roundtrip_refuted"
   ],
   "note": "The expected round trip is false of the code; exact domain proved, refutation witnessed."
  },
  {
   "property": "C04",
   "status": "proved",
   "theorems": [
    "C04_decoders_agree",
    "C04_decoders_empty"
   ],
   "note": ""
  },
  {
   "property": "C05",
   "status": "proved",
   "theorems": [
    "C05_range_check",
    "C05_range_check_int32",
    "C05_int32_range_refuted",
    "C05_type_check",
    "C05_decode_bypasses_range"
   ],
   "note": ""
  },
  {
   "property": "C06",
   "status": "proved",
   "theorems": [
    "C06_counter_decode_mod",
    "C06_counter_decode_unsigned",
    "C06_counter64_misread_refuted",
    "C06_short_counter_refuted"
   ],
   "note": ""
  },
  {
   "property": "C07",
   "status": "proved",
   "theorems": [
    "C07_counter_step",
    "C07_counter_history",
    "C07_counter_wrap_refuted"
   ],
   "note": ""
  },
  {
   "property": "C08",
   "status": "proved",
   "theorems": [
    "C08_guage_saturates",
    "C08_guage_negative_refuted"
   ],
   "note": ""
  },
  {
   "property": "C09",
   "status": "proved",
   "theorems": [
    "C09_integer_add",
    "C09_integer_sub_adds",
    "C09_integer_sub_refuted"
   ],
   "note": ""
  },
  {
   "property": "C10",
   "status": "proved",
   "theorems": [
    "C10_oid_encoding_conforms",
    "C10_oid_short_rejected",
    "C10_oid_negative_arc_accepted"
   ],
   "note": ""
  },
  {
   "property": "C11",
   "status": "proved",
   "theorems": [
    "C11_oid_roundtrip_domain",
    "C11_oid_roundtrip_value",
    "C11_oid_roundtrip_refuted"
   ],
   "note": ""
  },
  {
   "property": "C12",
   "status": "proved",
   "theorems": [
    "C12_oid_decode_outcome"
   ],
   "note": ""
  },
  {
   "property": "C13",
   "status": "proved",
   "theorems": [
    "C13_oid_text_roundtrip",
    "C13_oid_text_dots",
    "C13_oid_text_sound",
    "C13_oid_accepts",
    "C13_oid_refuses",
    "C13_oid_printed",
    "C13_oid_text_refuted"
   ],
   "note": ""
  },
  {
   "property": "C14",
   "status": "proved",
   "theorems": [
    "C14_prefix_true",
    "C14_prefix_false",
    "C14_prefix_reflexive",
    "C14_prefix_transitive",
    "C14_prefix_antisymmetric",
    "C14_prefix_of_extension"
   ],
   "note": ""
  },
  {
   "property": "C15",
   "status": "proved",
   "theorems": [
    "C15_index",
    "C15_index_out_of_range",
    "C15_len",
    "C15_slice_split",
    "C15_slice_window",
    "C15_delete",
    "C15_delete_out_of_range",
    "C15_append_and_copy"
   ],
   "note": ""
  },
  {
   "property": "C16",
   "status": "proved",
   "theorems": [
    "C16_ip_roundtrip",
    "C16_ip_accepts",
    "C16_int",
    "C16_ip_decode_any_length",
    "C16_ip_range_refuted"
   ],
   "note": ""
  },
  {
   "property": "C17",
   "status": "proved",
   "theorems": [
    "C17_identifier_right",
    "C17_identifier_refuted",
    "C17_identifier_exceptions",
    "C17_table_right",
    "C17_table_classes",
    "C17_table_complete",
    "C17_written_then_read",
    "C17_counter64_undecodable"
   ],
   "note": ""
  },
  {
   "property": "C18",
   "status": "proved",
   "theorems": [
    "C18_roundtrip"
   ],
   "note": ""
  },
  {
   "property": "C19",
   "status": "proved",
   "theorems": [
    "C19_concatenation"
   ],
   "note": ""
  },
  {
   "property": "C20",
   "status": "proved",
   "theorems": [
    "C20_prefix_free",
    "C20_injective",
    "C20_injective_refuted"
   ],
   "note": ""
  },
  {
   "property": "C21",
   "status": "proved",
   "theorems": [
    "C21_terminates",
    "C21_no_recursion",
    "C21_recursion_witness",
    "C21_valueerror_only_refuted"
   ],
   "note": ""
  },
  {
   "property": "C22",
   "status": "proved",
   "theorems": [
    "C22_truncated",
    "C22_cut_accepted_refuted"
   ],
   "note": ""
  },
  {
   "property": "C23",
   "status": "proved",
   "theorems": [
    "C23_high_tag_alias"
   ],
   "note": ""
  },
  {
   "property": "C24",
   "status": "proved",
   "theorems": [
    "C24_high_tag_diverges"
   ],
   "note": ""
  },
  {
   "property": "C25",
   "status": "proved",
   "theorems": [
    "C25_request_roundtrip",
    "C25_getbulk_roundtrip",
    "C25_message_interop",
    "C25_v1_response_refuted"
   ],
   "note": ""
  },
  {
   "property": "C26",
   "status": "proved",
   "theorems": [
    "C26_trap_roundtrip"
   ],
   "note": ""
  },
  {
   "property": "C27",
   "status": "proved",
   "theorems": [
    "C27_accepts",
    "C27_refuses",
    "C27_validation_refuted"
   ],
   "note": ""
  },
  {
   "property": "C28",
   "status": "proved",
   "theorems": [
    "C28_pdu_accepts",
    "C28_getbulk_accepts",
    "C28_trap_accepts",
    "C28_binding_validation_refuted"
   ],
   "note": ""
  },
  {
   "property": "C29",
   "status": "proved",
   "theorems": [
    "C29_message_equality_refuted",
    "C29_message_classes",
    "C29_decoded_equal_refuted"
   ],
   "note": ""
  },
  {
   "property": "C30",
   "status": "proved",
   "theorems": [
    "C30_eq_reflexive",
    "C30_eq_means_same",
    "C30_eq_classes",
    "C30_eq_integers",
    "C30_ne_negates",
    "C30_symmetry_refuted"
   ],
   "note": ""
  },
  {
   "property": "C31",
   "status": "proved",
   "theorems": [
    "C31_hex_faithful",
    "C31_hex_injective",
    "C31_oct_exact",
    "C31_oct_injective_below_64",
    "C31_oct_refuted"
   ],
   "note": ""
  },
  {
   "property": "C32",
   "status": "proved",
   "theorems": [
    "C32_ids_consecutive",
    "C32_queued_ids"
   ],
   "note": ""
  },
  {
   "property": "C33",
   "status": "proved",
   "theorems": [
    "C33_threshold",
    "C33_limits",
    "C33_forever",
    "C33_reachable"
   ],
   "note": ""
  },
  {
   "property": "C34",
   "status": "proved",
   "theorems": [
    "C34_response_to_its_request"
   ],
   "note": ""
  },
  {
   "property": "C35",
   "status": "proved",
   "theorems": [
    "C35_not_invoked_again",
    "C35_completes_once",
    "C35_registered_until_then",
    "C35_raise_keeps",
    "C35_once_refuted"
   ],
   "note": ""
  },
  {
   "property": "C36",
   "status": "proved",
   "theorems": [
    "C36_unsolicited"
   ],
   "note": ""
  },
  {
   "property": "C37",
   "status": "proved",
   "theorems": [
    "C37_receiving_keeps",
    "C37_entries"
   ],
   "note": ""
  },
  {
   "property": "C38",
   "status": "proved",
   "theorems": [
    "C38_no_authentication",
    "C38_answers"
   ],
   "note": ""
  },
  {
   "property": "C39",
   "status": "proved",
   "theorems": [
    "C39_fifo",
    "C39_failure_ends_run",
    "C39_drains"
   ],
   "note": ""
  },
  {
   "property": "C40",
   "status": "proved",
   "theorems": [
    "C40_datagram_rejected",
    "C40_send_fails",
    "C40_nothing_transmitted",
    "C40_no_callbacks"
   ],
   "note": ""
  },
  {
   "property": "C41",
   "status": "proved",
   "theorems": [
    "C41_v2_never_raises",
    "C41_v2_callbacks",
    "C41_others_raise",
    "C41_undecodable",
    "C41_exit_refuted"
   ],
   "note": ""
  },
  {
   "property": "C42",
   "status": "proved",
   "theorems": [
    "C42_failed_call"
   ],
   "note": ""
  },
  {
   "property": "C43",
   "status": "proved",
   "theorems": [
    "C43_success"
   ],
   "note": ""
  },
  {
   "property": "C44",
   "status": "proved",
   "theorems": [
    "C44_manager_set",
    "C44_v1_set_refuted",
    "C44_v1_set_kind",
    "C44_v2_broken"
   ],
   "note": ""
  },
  {
   "property": "C45",
   "status": "proved",
   "theorems": [
    "C45_trap_queued",
    "C45_trap_on_wire",
    "C45_manager_trap",
    "C45_empty_message"
   ],
   "note": ""
  },
  {
   "property": "C46",
   "status": "proved",
   "theorems": [
    "C46_only_traps",
    "C46_reaction",
    "C46_trap_delivered",
    "C46_manager_v2_traps"
   ],
   "note": ""
  },
  {
   "property": "C47",
   "status": "proved",
   "theorems": [
    "C47_get_on_wire",
    "C47_getnext_on_wire",
    "C47_round_trip",
    "C47_get_answered"
   ],
   "note": ""
  },
  {
   "property": "C48",
   "status": "proved",
   "theorems": [
    "C48_read",
    "C48_send",
    "C48_close",
    "C48_newest",
    "C48_closed_once",
    "C48_no_leak",
    "C48_leak_refuted"
   ],
   "note": ""
  },
  {
   "property": "C49",
   "status": "proved",
   "theorems": [
    "C49_socket_error",
    "C49_bad_datagram",
    "C49_mistaken_refuted"
   ],
   "note": ""
  },
  {
   "property": "C50",
   "status": "proved",
   "theorems": [
    "C50_str",
    "C50_stable",
    "C50_texts",
    "C50_made_by_hand",
    "C50_made_by_pdu",
    "C50_made_by_decoding",
    "C50_v1_only",
    "C50_enum_refuted",
    "C50_trap_enum"
   ],
   "note": ""
  },
  {
   "property": "C51",
   "status": "proved",
   "theorems": [
    "C51_octetstring_v2"
   ],
   "note": ""
  },
  {
   "property": "C52",
   "status": "proved",
   "theorems": [
    "C52_conformance"
   ],
   "note": ""
  },
  {
   "property": "C53",
   "status": "proved",
   "theorems": [
    "C53_interop",
    "C53_unambiguous"
   ],
   "note": ""
  },
  {
   "property": "C54",
   "status": "proved",
   "theorems": [
    "C54_print_received",
    "C54_print_decoded",
    "C54_text",
    "C54_message_text",
    "C54_decimal",
    "C54_unprintable_refuted"
   ],
   "note": ""
  },
  {
   "property": "C55",
   "status": "proved",
   "theorems": [
    "C55_isinstance",
    "C55_append",
    "C55_construct_false",
    "C55_construct",
    "C55_construct_other",
    "C55_history",
    "C55_bindings"
   ],
   "note": ""
  },
  {
   "property": "C56",
   "status": "proved",
   "theorems": [
    "C56_primitive",
    "C56_deterministic"
   ],
   "note": ""
  },
  {
   "property": "C57",
   "status": "proved",
   "theorems": [
    "C57_preencoded",
    "C57_verbatim",
    "C57_empty_value",
    "C57_empty_value_refuted",
    "C57_false_value"
   ],
   "note": ""
  },
  {
   "property": "C58",
   "status": "proved",
   "theorems": [
    "C58_only_when_empty",
    "C58_always_when_empty",
    "C58_done_refuted",
    "C58_never_polls",
    "C58_never_answered",
    "C58_mistaken_refuted"
   ],
   "note": ""
  },
  {
   "property": "C59",
   "status": "proved",
   "theorems": [
    "C59_accepts",
    "C59_on_wire",
    "C59_default_address_refuted",
    "C59_uptime_refuted",
    "C59_address_object_refuted",
    "C59_plain_list_refuted"
   ],
   "note": ""
  },
  {
   "property": "C60",
   "status": "proved",
   "theorems": [
    "C60_letters",
    "C60_other",
    "C60_integer",
    "C60_integer_refused",
    "C60_string",
    "C60_identifier",
    "C60_address",
    "C60_unusable_refuted",
    "C60_enterprise",
    "C60_enterprise_dot_refuted"
   ],
   "note": ""
  },
  {
   "property": "C61",
   "status": "proved",
   "theorems": [
    "C61_hash_consistent",
    "C61_hashable"
   ],
   "note": ""
  },
  {
   "property": "C62",
   "status": "proved",
   "theorems": [
    "C62_hex",
    "C62_oct",
    "C62_to_oid",
    "C62_to_oid_refuted"
   ],
   "note": ""
  },
  {
   "property": "C63",
   "status": "proved",
   "theorems": [
    "C63_alone",
    "C63_range",
    "C63_unique",
    "C63_unique_refuted"
   ],
   "note": ""
  },
  {
   "property": "C64",
   "status": "proved",
   "theorems": [
    "C64_right_callback",
    "C64_registered",
    "C64_answered",
    "C64_early_refuted",
    "C64_right_callback_refuted",
    "C64_twice_refuted"
   ],
   "note": ""
  },
  {
   "property": "C65",
   "status": "proved",
   "theorems": [
    "C65_queue"
   ],
   "note": ""
  },
  {
   "property": "C66",
   "status": "proved",
   "theorems": [
    "C66_walk",
    "C66_ends",
    "C66_subtree_refuted",
    "C66_loops_refuted",
    "C66_counter64_refuted",
    "C66_instance",
    "C66_error",
    "C66_fatal",
    "C66_silence",
    "C66_socket_error",
    "C66_one_chance",
    "C66_starts",
    "C66_progress",
    "C66_deterministic"
   ],
   "note": ""
  },
  {
   "property": "C67",
   "status": "proved",
   "theorems": [
    "C67_get",
    "C67_set",
    "C67_unanswered",
    "C67_usage",
    "C67_bad_name",
    "C67_set_refused",
    "C67_python3_refuted",
    "C67_python3_mute"
   ],
   "note": ""
  },
  {
   "property": "C68",
   "status": "proved",
   "theorems": [
    "C68_v1_v2_refuted",
    "C68_port_taken",
    "C68_listens",
    "C68_trap",
    "C68_survives",
    "C68_socket_error",
    "C68_notification_refuted",
    "C68_python3_refuted",
    "C68_sender_refuted"
   ],
   "note": ""
  },
  {
   "property": "C69",
   "status": "proved",
   "theorems": [
    "C69_bad_callback",
    "C69_opening_fails",
    "C69_opened",
    "C69_send",
    "C69_own_socket"
   ],
   "note": ""
  },
  {
   "property": "C70",
   "status": "proved",
   "theorems": [
    "C70_lossless",
    "C70_handed",
    "C70_only_read",
    "C70_poll_serves_all",
    "C70_interrupted",
    "C70_error",
    "C70_valueerror",
    "C70_valueerror_raised"
   ],
   "note": ""
  },
  {
   "property": "C71",
   "status": "proved",
   "theorems": [
    "C71_close",
    "C71_closed_for_good",
    "C71_close_again",
    "C71_handle_close_again",
    "C71_close_in_callback",
    "C71_handle_close_breaks_poll",
    "C71_handle_close_always",
    "C71_reopen_same",
    "C71_reopen_other",
    "C71_stale_close_refuted"
   ],
   "note": ""
  },
  {
   "property": "C72",
   "status": "proved",
   "theorems": [
    "C72_never_hangs",
    "C72_hung",
    "C72_nested_poll_refuted",
    "C72_new_manager_refuted"
   ],
   "note": ""
  },
  {
   "property": "C73",
   "status": "proved",
   "theorems": [
    "C73_get_fixed",
    "C73_set_fixed",
    "C73_getnext_shares_varbinds",
    "C73_v1_set_shares_varbinds",
    "C73_trap_shared",
    "C73_encoded_when_sent",
    "C73_calls_change_nothing",
    "C73_append_changes_the_list",
    "C73_varbind_shares",
    "C73_trappdu_shares",
    "C73_varbindlist_copies",
    "C73_objectid_copies",
    "C73_append_refuses",
    "C73_returned_id_shared_refuted"
   ],
   "note": ""
  },
  {
   "property": "C74",
   "status": "proved",
   "theorems": [
    "C74_received_is_new",
    "C74_received_attributes",
    "C74_own_entry",
    "C74_other_entry_refuted",
    "C74_registered",
    "C74_registrations_v1_v2",
    "C74_registrations_snmpManager",
    "C74_changed_key_refuted"
   ],
   "note": ""
  },
  {
   "property": "C75",
   "status": "proved",
   "theorems": [
    "C75_defaults_stay_empty",
    "C75_new_lists",
    "C75_new_pdus"
   ],
   "note": ""
  },
  {
   "property": "C76",
   "status": "proved",
   "theorems": [
    "C76_in_step",
    "C76_objects_to_values",
    "C76_values_to_objects",
    "C76_call",
    "C76_constructors"
   ],
   "note": ""
  },
  {
   "property": "C77",
   "status": "proved",
   "theorems": [
    "C77_answers_are_genuine",
    "C77_content",
    "C77_silence"
   ],
   "note": ""
  },
  {
   "property": "C78",
   "status": "proved",
   "theorems": [
    "C78_traps_are_genuine",
    "C78_trap_arrives"
   ],
   "note": ""
  },
  {
   "property": "C79",
   "status": "proved",
   "theorems": [
    "C79_at_most_twice",
    "C79_shortest",
    "C79_shortest_refuted"
   ],
   "note": ""
  },
  {
   "property": "C80",
   "status": "proved",
   "theorems": [
    "C80_prefix",
    "C80_complete",
    "C80_ends",
    "C80_lost_refuted"
   ],
   "note": ""
  },
  {
   "property": "C81",
   "status": "proved",
   "theorems": [
    "C81_set",
    "C81_get",
    "C81_read_your_writes",
    "C81_set_possible",
    "C81_get_possible"
   ],
   "note": ""
  },
  {
   "property": "C82",
   "status": "proved",
   "theorems": [
    "C82_alone",
    "C82_asyncore",
    "C82_callback",
    "C82_trap",
    "C82_once",
    "C82_ids",
    "C82_fifo",
    "C82_transmitted",
    "C82_sent"
   ],
   "note": ""
  },
  {
   "property": "C83",
   "status": "proved",
   "theorems": [
    "C83_answers_are_genuine"
   ],
   "note": ""
  },
  {
   "property": "C84",
   "status": "proved",
   "theorems": [
    "C84_ends_run",
    "C84_trap_ends_run",
    "C84_datagram_ends_run",
    "C84_v2_goes_on",
    "C84_v2_trap_goes_on",
    "C84_causes",
    "C84_run_ends",
    "C84_not_callable",
    "C84_isolation_refuted"
   ],
   "note": ""
  },
  {
   "property": "C85",
   "status": "proved",
   "theorems": [
    "C85_progress",
    "C85_waits",
    "C85_never_waits",
    "C85_calm_progress",
    "C85_waits_refuted"
   ],
   "note": ""
  },
  {
   "property": "C86",
   "status": "proved",
   "theorems": [
    "C86_closed_for_good",
    "C86_others"
   ],
   "note": ""
  },
  {
   "property": "C87",
   "status": "proved",
   "theorems": [
    "C87_poll",
    "C87_run",
    "C87_sends",
    "C87_round_trip"
   ],
   "note": ""
  },
  {
   "property": "C88",
   "status": "proved",
   "theorems": [
    "C88_lossless",
    "C88_handed",
    "C88_only_read",
    "C88_raised",
    "C88_raises_only",
    "C88_poll_serves",
    "C88_close_again",
    "C88_in_order",
    "C88_no_overlap",
    "C88_overlap_refuted",
    "C88_order_refuted",
    "C88_foreign_thread_refuted"
   ],
   "note": ""
  },
  {
   "property": "C89",
   "status": "proved",
   "theorems": [
    "C89_progress",
    "C89_released",
    "C89_one_at_a_time",
    "C89_bounded",
    "C89_hang_refuted",
    "C89_polls_locked_refuted"
   ],
   "note": ""
  },
  {
   "property": "C90",
   "status": "proved",
   "theorems": [
    "C90_rounding",
    "C90_close",
    "C90_whole",
    "C90_never_back",
    "C90_exact_refuted",
    "C90_failure",
    "C90_reads",
    "C90_trap"
   ],
   "note": ""
  },
  {
   "property": "C91",
   "status": "proved",
   "theorems": [
    "C91_invisible",
    "C91_finalize",
    "C91_stays",
    "C91_never_dropped",
    "C91_poll_serves_all",
    "C91_lossless",
    "C91_handed",
    "C91_only_read",
    "C91_own_socket",
    "C91_no_leak",
    "C91_only_leftovers",
    "C91_role_del",
    "C91_role_all_closed"
   ],
   "note": ""
  },
  {
   "property": "C92",
   "status": "proved",
   "theorems": [
    "C92_words",
    "C92_option_refused",
    "C92_determined",
    "C92_zero_or_one",
    "C92_get",
    "C92_set",
    "C92_walk",
    "C92_error_refuted",
    "C92_silence_refuted",
    "C92_unanswered_refuted",
    "C92_exception",
    "C92_bad_name",
    "C92_port_taken",
    "C92_usage",
    "C92_v1_v2_refuted",
    "C92_sender_refuted",
    "C92_listener"
   ],
   "note": ""
  },
  {
   "property": "C93",
   "status": "proved",
   "theorems": [
    "C93_bounded",
    "C93_message",
    "C93_numbers",
    "C93_digits",
    "C93_digits_refuted"
   ],
   "note": ""
  },
  {
   "property": "C94",
   "status": "proved",
   "theorems": [
    "C94_cut",
    "C94_string",
    "C94_number",
    "C94_bindings",
    "C94_callback",
    "C94_only",
    "C94_message_only",
    "C94_trap_only",
    "C94_trap_callback"
   ],
   "note": ""
  }
 ]
}