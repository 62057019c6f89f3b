{
 "claims": [
  {
   "property": "C01",
   "status": "proved",
   "theorems": [
    "C01_semi_octets_roundtrip"
   ],
   "note": ""
  },
  {
   "property": "C02",
   "status": "proved",
   "theorems": [
    "C02_semi_octets_layout"
   ],
   "note": ""
  },
  {
   "property": "C03",
   "status": "proved",
   "theorems": [
    "C03_gsm7_roundtrip"
   ],
   "note": ""
  },
  {
   "property": "C04",
   "status": "proved",
   "theorems": [
    "C04_gsm7_accepts"
   ],
   "note": ""
  },
  {
   "property": "C05",
   "status": "proved",
   "theorems": [
    "C05_gsm7_tables"
   ],
   "note": ""
  },
  {
   "property": "C06",
   "status": "proved",
   "theorems": [
    "C06_pack_is_bit_stream"
   ],
   "note": ""
  },
  {
   "property": "C07",
   "status": "proved",
   "theorems": [
    "C07_unpack_inverts_pack",
    "C07_pack_empty"
   ],
   "note": ""
  },
  {
   "property": "C08",
   "status": "proved",
   "theorems": [
    "C08_unpack_reads_bit_stream"
   ],
   "note": ""
  },
  {
   "property": "C09",
   "status": "proved",
   "theorems": [
    "C09_ucs2_roundtrip"
   ],
   "note": ""
  },
  {
   "property": "C10",
   "status": "proved",
   "theorems": [
    "C10_validity_rounds_down",
    "C10_validity_decodes",
    "C10_validity_reencodes",
    "C10_validity_too_long",
    "C10_validity_too_short"
   ],
   "note": ""
  },
  {
   "property": "C11",
   "status": "proved",
   "theorems": [
    "C11_timestamp_roundtrip",
    "C11_naive_timestamp"
   ],
   "note": ""
  },
  {
   "property": "C12",
   "status": "proved",
   "theorems": [
    "C12_timestamp_real"
   ],
   "note": ""
  },
  {
   "property": "C13",
   "status": "proved",
   "theorems": [
    "C13_phone_number_roundtrip"
   ],
   "note": ""
  },
  {
   "property": "C14",
   "status": "proved",
   "theorems": [
    "C14_alphanumeric_roundtrip"
   ],
   "note": ""
  },
  {
   "property": "C15",
   "status": "proved",
   "theorems": [
    "C15_single_part_roundtrip"
   ],
   "note": ""
  },
  {
   "property": "C16",
   "status": "proved",
   "theorems": [
    "C16_parts_numbered"
   ],
   "note": ""
  },
  {
   "property": "C17",
   "status": "proved",
   "theorems": [
    "C17_transmitted_text",
    "C17_truncated_lengths"
   ],
   "note": ""
  },
  {
   "property": "C18",
   "status": "proved",
   "theorems": [
    "C18_user_data_limit"
   ],
   "note": ""
  },
  {
   "property": "C19",
   "status": "proved",
   "theorems": [
    "C19_alphabet_choice",
    "C19_alphabet_typeerror",
    "C19_flash_only_class",
    "C19_fields_unique"
   ],
   "note": ""
  },
  {
   "property": "C20",
   "status": "proved",
   "theorems": [
    "C20_tpdu_length"
   ],
   "note": ""
  },
  {
   "property": "C21",
   "status": "proved",
   "theorems": [
    "C21_first_octet"
   ],
   "note": ""
  },
  {
   "property": "C22",
   "status": "proved",
   "theorems": [
    "C22_exceptions",
    "C22_exceptions_bytes",
    "C22_message_type"
   ],
   "note": ""
  },
  {
   "property": "C23",
   "status": "proved",
   "theorems": [
    "C23_deliver"
   ],
   "note": ""
  },
  {
   "property": "C24",
   "status": "proved",
   "theorems": [
    "C24_first_character_lost",
    "C24_text_after_header"
   ],
   "note": ""
  },
  {
   "property": "C25",
   "status": "proved",
   "theorems": [
    "C25_status_report"
   ],
   "note": ""
  },
  {
   "property": "C26",
   "status": "proved",
   "theorems": [
    "C26_element_roundtrip"
   ],
   "note": ""
  },
  {
   "property": "C27",
   "status": "proved",
   "theorems": [
    "C27_hex_text"
   ],
   "note": ""
  },
  {
   "property": "C28",
   "status": "proved",
   "theorems": [
    "C28_time",
    "C28_offset",
    "C28_no_such_date",
    "C28_total",
    "C28_exact"
   ],
   "note": ""
  },
  {
   "property": "C29",
   "status": "proved",
   "theorems": [
    "C29_starting_with",
    "C29_matching",
    "C29_all_matching"
   ],
   "note": ""
  },
  {
   "property": "C30",
   "status": "proved",
   "theorems": [
    "C30_read_back",
    "C30_other_keys",
    "C30_lost_keys",
    "C30_lost_key_unique"
   ],
   "note": ""
  },
  {
   "property": "C31",
   "status": "proved",
   "theorems": [
    "C31_delete_present",
    "C31_delete_absent"
   ],
   "note": ""
  },
  {
   "property": "C32",
   "status": "proved",
   "theorems": [
    "C32_keys",
    "C32_keys_prefix",
    "C32_len",
    "C32_contains"
   ],
   "note": ""
  },
  {
   "property": "C33",
   "status": "proved",
   "theorems": [
    "C33_lookup",
    "C33_listing",
    "C33_deletion"
   ],
   "note": ""
  },
  {
   "property": "C34",
   "status": "proved",
   "theorems": [
    "C34_common_prefix",
    "C34_longest",
    "C34_any_history",
    "C34_dead_ends"
   ],
   "note": ""
  },
  {
   "property": "C35",
   "status": "proved",
   "theorems": [
    "C35_lines",
    "C35_unique",
    "C35_prompt",
    "C35_schedules"
   ],
   "note": ""
  },
  {
   "property": "C36",
   "status": "proved",
   "theorems": [
    "C36_routed",
    "C36_notified",
    "C36_response_lines",
    "C36_unsolicited"
   ],
   "note": ""
  },
  {
   "property": "C37",
   "status": "proved",
   "theorems": [
    "C37_final_line",
    "C37_response"
   ],
   "note": ""
  },
  {
   "property": "C38",
   "status": "proved",
   "theorems": [
    "C38_one_command",
    "C38_sends_locked",
    "C38_writes_never_crash"
   ],
   "note": ""
  },
  {
   "property": "C39",
   "status": "proved",
   "theorems": [
    "C39_no_crosstalk",
    "C39_stale_line",
    "C39_late_answer"
   ],
   "note": ""
  },
  {
   "property": "C40",
   "status": "proved",
   "theorems": [
    "C40_crash_possible",
    "C40_crash_possible_prompt",
    "C40_crash_kinds",
    "C40_alive_if_atomic",
    "C40_dead_is_silent"
   ],
   "note": ""
  },
  {
   "property": "C41",
   "status": "proved",
   "theorems": [
    "C41_never_error",
    "C41_outcome",
    "C41_one_outcome",
    "C41_unparsed"
   ],
   "note": ""
  },
  {
   "property": "C42",
   "status": "proved",
   "theorems": [
    "C42_retried",
    "C42_busy_forever"
   ],
   "note": ""
  },
  {
   "property": "C43",
   "status": "proved",
   "theorems": [
    "C43_counter"
   ],
   "note": ""
  },
  {
   "property": "C44",
   "status": "proved",
   "theorems": [
    "C44_parts",
    "C44_unencodable",
    "C44_object"
   ],
   "note": ""
  },
  {
   "property": "C45",
   "status": "proved",
   "theorems": [
    "C45_status",
    "C45_objects"
   ],
   "note": ""
  },
  {
   "property": "C46",
   "status": "proved",
   "theorems": [
    "C46_session",
    "C46_notification",
    "C46_other_lines"
   ],
   "note": ""
  },
  {
   "property": "C47",
   "status": "proved",
   "theorems": [
    "C47_one_memory",
    "C47_two_memories",
    "C47_handler_is_method"
   ],
   "note": ""
  },
  {
   "property": "C48",
   "status": "proved",
   "theorems": [
    "C48_listing"
   ],
   "note": ""
  },
  {
   "property": "C49",
   "status": "proved",
   "theorems": [
    "C49_shifted"
   ],
   "note": ""
  },
  {
   "property": "C50",
   "status": "proved",
   "theorems": [
    "C50_notification",
    "C50_unfinished",
    "C50_processing"
   ],
   "note": ""
  },
  {
   "property": "C51",
   "status": "proved",
   "theorems": [
    "C51_reports",
    "C51_notifications",
    "C51_unrelated",
    "C51_hangup",
    "C51_answer",
    "C51_table",
    "C51_complete",
    "C51_counted"
   ],
   "note": ""
  },
  {
   "property": "C52",
   "status": "proved",
   "theorems": [
    "C52_sent",
    "C52_refused"
   ],
   "note": ""
  },
  {
   "property": "C53",
   "status": "proved",
   "theorems": [
    "C53_pin",
    "C53_unlocked",
    "C53_no_pin"
   ],
   "note": ""
  },
  {
   "property": "C54",
   "status": "proved",
   "theorems": [
    "C54_returns",
    "C54_complete",
    "C54_denied",
    "C54_refused",
    "C54_timeout",
    "C54_fired",
    "C54_fired_later",
    "C54_in_time"
   ],
   "note": ""
  },
  {
   "property": "C55",
   "status": "proved",
   "theorems": [
    "C55_one_line",
    "C55_lines",
    "C55_items_unique",
    "C55_sent"
   ],
   "note": ""
  },
  {
   "property": "C56",
   "status": "proved",
   "theorems": [
    "C56_reports",
    "C56_modem"
   ],
   "note": ""
  },
  {
   "property": "C57",
   "status": "proved",
   "theorems": [
    "C57_inside",
    "C57_bounds",
    "C57_edits",
    "C57_edits_one_way",
    "C57_history"
   ],
   "note": ""
  },
  {
   "property": "C58",
   "status": "proved",
   "theorems": [
    "C58_accepted_calls"
   ],
   "note": ""
  },
  {
   "property": "C59",
   "status": "proved",
   "theorems": [
    "C59_signal",
    "C59_network",
    "C59_smsc",
    "C59_smsc_exact",
    "C59_smsc_cached",
    "C59_identity",
    "C59_revision",
    "C59_commands",
    "C59_asked"
   ],
   "note": ""
  },
  {
   "property": "C60",
   "status": "proved",
   "theorems": [
    "C60_read",
    "C60_read_selected",
    "C60_delete",
    "C60_memory"
   ],
   "note": ""
  },
  {
   "property": "C61",
   "status": "proved",
   "theorems": [
    "C61_text_listing"
   ],
   "note": ""
  },
  {
   "property": "C62",
   "status": "proved",
   "theorems": [
    "C62_service_centre"
   ],
   "note": ""
  },
  {
   "property": "C63",
   "status": "proved",
   "theorems": [
    "C63_reply",
    "C63_cancel",
    "C63_response",
    "C63_waits",
    "C63_at_once",
    "C63_not_waiting"
   ],
   "note": ""
  },
  {
   "property": "C64",
   "status": "proved",
   "theorems": [
    "C64_dial",
    "C64_wait",
    "C64_announced"
   ],
   "note": ""
  },
  {
   "property": "C65",
   "status": "proved",
   "theorems": [
    "C65_ring",
    "C65_caller"
   ],
   "note": ""
  },
  {
   "property": "C66",
   "status": "proved",
   "theorems": [
    "C66_screen",
    "C66_prompt"
   ],
   "note": ""
  },
  {
   "property": "C67",
   "status": "proved",
   "theorems": [
    "C67_no_match",
    "C67_one_match",
    "C67_matches",
    "C67_line"
   ],
   "note": ""
  },
  {
   "property": "C68",
   "status": "proved",
   "theorems": [
    "C68_command",
    "C68_blank",
    "C68_local",
    "C68_file",
    "C68_no_file",
    "C68_sms",
    "C68_all"
   ],
   "note": ""
  },
  {
   "property": "C69",
   "status": "proved",
   "theorems": [
    "C69_typing",
    "C69_ctrl_z",
    "C69_esc",
    "C69_not_typing"
   ],
   "note": ""
  },
  {
   "property": "C70",
   "status": "proved",
   "theorems": [
    "C70_raw"
   ],
   "note": ""
  },
  {
   "property": "C71",
   "status": "proved",
   "theorems": [
    "C71_table",
    "C71_help",
    "C71_completion",
    "C71_several"
   ],
   "note": ""
  },
  {
   "property": "C72",
   "status": "proved",
   "theorems": [
    "C72_calls",
    "C72_caller",
    "C72_storage",
    "C72_first"
   ],
   "note": ""
  },
  {
   "property": "C73",
   "status": "proved",
   "theorems": [
    "C73_connect",
    "C73_set",
    "C73_history"
   ],
   "note": ""
  },
  {
   "property": "C74",
   "status": "proved",
   "theorems": [
    "C74_wait",
    "C74_callback"
   ],
   "note": ""
  },
  {
   "property": "C75",
   "status": "proved",
   "theorems": [
    "C75_closed",
    "C75_error",
    "C75_fatal",
    "C75_fatal_once",
    "C75_ends",
    "C75_returns",
    "C75_serial",
    "C75_serial_labels"
   ],
   "note": ""
  },
  {
   "property": "C76",
   "status": "proved",
   "theorems": [
    "C76_clean",
    "C76_notifications",
    "C76_failed_write"
   ],
   "note": ""
  },
  {
   "property": "C77",
   "status": "proved",
   "theorems": [
    "C77_order",
    "C77_ends",
    "C77_no_pin",
    "C77_verdict"
   ],
   "note": ""
  },
  {
   "property": "C78",
   "status": "proved",
   "theorems": [
    "C78_identify",
    "C78_dump"
   ],
   "note": ""
  },
  {
   "property": "C79",
   "status": "proved",
   "theorems": [
    "C79_sent",
    "C79_right_after",
    "C79_disturbed",
    "C79_both_fail",
    "C79_misdirected",
    "C79_alone"
   ],
   "note": ""
  },
  {
   "property": "C80",
   "status": "proved",
   "theorems": [
    "C80_number",
    "C80_number_race",
    "C80_same_reference",
    "C80_waited",
    "C80_in_time",
    "C80_wrong_wakes",
    "C80_nobody_told",
    "C80_no_event",
    "C80_too_early",
    "C80_wait_alone",
    "C80_report_alone"
   ],
   "note": ""
  },
  {
   "property": "C81",
   "status": "proved",
   "theorems": [
    "C81_delivered",
    "C81_whole",
    "C81_order_lost",
    "C81_no_reassembly"
   ],
   "note": ""
  },
  {
   "property": "C82",
   "status": "proved",
   "theorems": [
    "C82_reply",
    "C82_answered",
    "C82_digits",
    "C82_text",
    "C82_no_number"
   ],
   "note": ""
  },
  {
   "property": "C83",
   "status": "proved",
   "theorems": [
    "C83_idle",
    "C83_processing",
    "C83_raising",
    "C83_received",
    "C83_reported",
    "C83_ring"
   ],
   "note": ""
  },
  {
   "property": "C84",
   "status": "proved",
   "theorems": [
    "C84_notified",
    "C84_answered",
    "C84_ended",
    "C84_as_before",
    "C84_interrupted",
    "C84_forever",
    "C84_counted",
    "C84_once",
    "C84_table"
   ],
   "note": ""
  },
  {
   "property": "C85",
   "status": "proved",
   "theorems": [
    "C85_reply",
    "C85_report",
    "C85_echo",
    "C85_first_ring",
    "C85_no_tones",
    "C85_incoming",
    "C85_unanswered",
    "C85_dialled",
    "C85_polling",
    "C85_ussd"
   ],
   "note": ""
  },
  {
   "property": "C86",
   "status": "proved",
   "theorems": [
    "C86_ended",
    "C86_stays",
    "C86_unknown_modem",
    "C86_rings_old",
    "C86_not_picked_up"
   ],
   "note": ""
  },
  {
   "property": "C87",
   "status": "proved",
   "theorems": [
    "C87_shown",
    "C87_colours",
    "C87_mixed",
    "C87_raw",
    "C87_prompt_replaced",
    "C87_prompt_stays",
    "C87_interrupted",
    "C87_uninterrupted"
   ],
   "note": ""
  },
  {
   "property": "C88",
   "status": "proved",
   "theorems": [
    "C88_ends",
    "C88_open",
    "C88_other_key"
   ],
   "note": ""
  },
  {
   "property": "C89",
   "status": "proved",
   "theorems": [
    "C89_why"
   ],
   "note": ""
  },
  {
   "property": "C90",
   "status": "proved",
   "theorems": [
    "C90_responses",
    "C90_exact",
    "C90_alive",
    "C90_answered",
    "C90_moves",
    "C90_rests"
   ],
   "note": ""
  },
  {
   "property": "C91",
   "status": "proved",
   "theorems": [
    "C91_ends",
    "C91_acknowledged",
    "C91_alone",
    "C91_idle",
    "C91_wakes",
    "C91_served",
    "C91_handler",
    "C91_forgotten",
    "C91_stolen",
    "C91_shared",
    "C91_stale",
    "C91_cleared",
    "C91_is_start",
    "C91_is_finish",
    "C91_is_handler"
   ],
   "note": ""
  },
  {
   "property": "C92",
   "status": "proved",
   "theorems": [
    "C92_ends",
    "C92_alone",
    "C92_entered",
    "C92_idle",
    "C92_wakes",
    "C92_served",
    "C92_handler",
    "C92_forgotten",
    "C92_stolen",
    "C92_shared",
    "C92_stale",
    "C92_cleared",
    "C92_is_start",
    "C92_is_finish",
    "C92_is_handler"
   ],
   "note": ""
  },
  {
   "property": "C93",
   "status": "proved",
   "theorems": [
    "C93_index",
    "C93_never_back",
    "C93_hung_up",
    "C93_ended",
    "C93_rung",
    "C93_dialled",
    "C93_answered",
    "C93_picked_up",
    "C93_loops",
    "C93_recorded",
    "C93_complete",
    "C93_sound",
    "C93_gone",
    "C93_goes_on",
    "C93_bounded",
    "C93_hangup_raises",
    "C93_handler_raises",
    "C93_rings_twice",
    "C93_ring_lost",
    "C93_answered_late",
    "C93_ring_uncounted",
    "C93_dials_twice",
    "C93_wrong_removed",
    "C93_is_ended",
    "C93_is_ended_somewhere",
    "C93_is_ended_numbered",
    "C93_is_answered",
    "C93_is_hangup",
    "C93_is_answer",
    "C93_is_incoming",
    "C93_is_dial",
    "C93_is_dial_told",
    "C93_alone"
   ],
   "note": ""
  },
  {
   "property": "C94",
   "status": "proved",
   "theorems": [
    "C94_store",
    "C94_once",
    "C94_kept",
    "C94_known",
    "C94_twice",
    "C94_reused",
    "C94_elsewhere",
    "C94_is_list",
    "C94_is_process",
    "C94_is_report"
   ],
   "note": ""
  },
  {
   "property": "C95",
   "status": "proved",
   "theorems": [
    "C95_lost",
    "C95_only_newer"
   ],
   "note": ""
  },
  {
   "property": "C96",
   "status": "proved",
   "theorems": [
    "C96_cme",
    "C96_cms",
    "C96_text",
    "C96_own",
    "C96_direct",
    "C96_plain",
    "C96_any_plain",
    "C96_arguments",
    "C96_handlers",
    "C96_carried",
    "C96_shown",
    "C96_raised",
    "C96_refusals",
    "C96_is_model"
   ],
   "note": ""
  },
  {
   "property": "C97",
   "status": "proved",
   "theorems": [
    "C97_apart",
    "C97_kept",
    "C97_grow",
    "C97_any",
    "C97_tones",
    "C97_crossed"
   ],
   "note": ""
  },
  {
   "property": "C98",
   "status": "proved",
   "theorems": [
    "C98_owner",
    "C98_goes_on",
    "C98_yields",
    "C98_outcome"
   ],
   "note": ""
  },
  {
   "property": "C99",
   "status": "proved",
   "theorems": [
    "C99_bytes",
    "C99_strings",
    "C99_mixed",
    "C99_silent",
    "C99_connect"
   ],
   "note": ""
  },
  {
   "property": "C100",
   "status": "proved",
   "theorems": [
    "C100_iteration"
   ],
   "note": ""
  },
  {
   "property": "C101",
   "status": "proved",
   "theorems": [
    "C101_ussd",
    "C101_dial",
    "C101_centre",
    "C101_stored",
    "C101_listed",
    "C101_tones",
    "C101_connect",
    "C101_notified",
    "C101_text",
    "C101_pdu",
    "C101_smuggled"
   ],
   "note": ""
  },
  {
   "property": "C102",
   "status": "proved",
   "theorems": [
    "C102_no_sender",
    "C102_no_recipient",
    "C102_no_text",
    "C102_only_header",
    "C102_listing",
    "C102_processing",
    "C102_notification"
   ],
   "note": ""
  },
  {
   "property": "C103",
   "status": "proved",
   "theorems": [
    "C103_exact",
    "C103_whole",
    "C103_missing_zone",
    "C103_filled_zone",
    "C103_message"
   ],
   "note": ""
  },
  {
   "property": "C104",
   "status": "proved",
   "theorems": [
    "C104_parts",
    "C104_different",
    "C104_same",
    "C104_tracked",
    "C104_other"
   ],
   "note": ""
  },
  {
   "property": "C105",
   "status": "proved",
   "theorems": [
    "C105_response",
    "C105_either",
    "C105_read",
    "C105_shortened",
    "C105_unreadable",
    "C105_endless",
    "C105_notified",
    "C105_believed",
    "C105_shifted",
    "C105_forged",
    "C105_unseen"
   ],
   "note": ""
  },
  {
   "property": "C106",
   "status": "proved",
   "theorems": [
    "C106_coded",
    "C106_upper_groups",
    "C106_compressed",
    "C106_ucs2_lost"
   ],
   "note": ""
  },
  {
   "property": "C107",
   "status": "proved",
   "theorems": [
    "C107_stored",
    "C107_enhanced",
    "C107_enhanced_octets"
   ],
   "note": ""
  },
  {
   "property": "C108",
   "status": "proved",
   "theorems": [
    "C108_read",
    "C108_differ",
    "C108_sent"
   ],
   "note": ""
  },
  {
   "property": "C109",
   "status": "proved",
   "theorems": [
    "C109_septets",
    "C109_agree",
    "C109_message",
    "C109_cut"
   ],
   "note": ""
  },
  {
   "property": "C110",
   "status": "proved",
   "theorems": [
    "C110_octets",
    "C110_ucs2",
    "C110_septets",
    "C110_short_text"
   ],
   "note": ""
  },
  {
   "property": "C111",
   "status": "proved",
   "theorems": [
    "C111_one_at_a_time",
    "C111_own_lines",
    "C111_stolen",
    "C111_silence",
    "C111_late_error",
    "C111_late_line",
    "C111_ends"
   ],
   "note": ""
  },
  {
   "property": "C112",
   "status": "proved",
   "theorems": [
    "C112_as_if",
    "C112_kept",
    "C112_report",
    "C112_found",
    "C112_dealt_with",
    "C112_key_error",
    "C112_lost",
    "C112_used_again",
    "C112_size"
   ],
   "note": ""
  },
  {
   "property": "C113",
   "status": "proved",
   "theorems": [
    "C113_console",
    "C113_one_by_one",
    "C113_raw_text",
    "C113_raw_together",
    "C113_dropped",
    "C113_pasted",
    "C113_in_pieces",
    "C113_cancelled"
   ],
   "note": ""
  },
  {
   "property": "C114",
   "status": "proved",
   "theorems": [
    "C114_writes",
    "C114_holds",
    "C114_unanswered",
    "C114_late",
    "C114_blocks",
    "C114_stopped",
    "C114_open",
    "C114_again",
    "C114_reconnects"
   ],
   "note": ""
  },
  {
   "property": "C115",
   "status": "proved",
   "theorems": [
    "C115_ignored",
    "C115_default_only",
    "C115_tables",
    "C115_septets",
    "C115_overrun_octets",
    "C115_overrun_ucs2",
    "C115_cut",
    "C115_wrong_length",
    "C115_longer"
   ],
   "note": ""
  },
  {
   "property": "C116",
   "status": "proved",
   "theorems": [
    "C116_steady",
    "C116_call",
    "C116_agree",
    "C116_beside",
    "C116_response",
    "C116_not_misread",
    "C116_compiled",
    "C116_not_compiled",
    "C116_two",
    "C116_three",
    "C116_stuck",
    "C116_repair"
   ],
   "note": ""
  },
  {
   "property": "C117",
   "status": "proved",
   "theorems": [
    "C117_delete",
    "C117_left"
   ],
   "note": ""
  },
  {
   "property": "C118",
   "status": "proved",
   "theorems": [
    "C118_own",
    "C118_moves",
    "C118_bound",
    "C118_rest",
    "C118_alone",
    "C118_no_pause",
    "C118_lost",
    "C118_slowed",
    "C118_either"
   ],
   "note": ""
  },
  {
   "property": "C119",
   "status": "proved",
   "theorems": [
    "C119_whole",
    "C119_cut",
    "C119_padded",
    "C119_all",
    "C119_text",
    "C119_number"
   ],
   "note": ""
  },
  {
   "property": "C120",
   "status": "proved",
   "theorems": [
    "C120_batches",
    "C120_any_schedule",
    "C120_together",
    "C120_apart",
    "C120_held",
    "C120_one",
    "C120_rest_lost",
    "C120_second_message"
   ],
   "note": ""
  },
  {
   "property": "C121",
   "status": "proved",
   "theorems": [
    "C121_callers",
    "C121_one_caller",
    "C121_two_calls"
   ],
   "note": ""
  },
  {
   "property": "C122",
   "status": "proved",
   "theorems": [
    "C122_no_port",
    "C122_typed",
    "C122_no_message",
    "C122_unread",
    "C122_before",
    "C122_instead"
   ],
   "note": ""
  },
  {
   "property": "C123",
   "status": "proved",
   "theorems": [
    "C123_ends",
    "C123_order",
    "C123_refused",
    "C123_connected",
    "C123_given",
    "C123_given_debug"
   ],
   "note": ""
  }
 ]
}