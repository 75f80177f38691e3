{
 "claims": [
  {
   "property": "C01",
   "status": "proved",
   "theorems": [
    "c01_registry_exact",
    "c01_registry_exact_any",
    "c01_add_grows",
    "reachable_registry_ok",
    "C01_startup",
    "C01_long_definitions_refuted"
   ],
   "note": "44 PGNs have a definition longer than a frame but are never reassembled"
  },
  {
   "property": "C02",
   "status": "proved",
   "theorems": [
    "c02_parse_exact",
    "c02_encode_parse"
   ],
   "note": ""
  },
  {
   "property": "C03",
   "status": "proved",
   "theorems": [
    "c03_identifier"
   ],
   "note": ""
  },
  {
   "property": "C04",
   "status": "proved",
   "theorems": [
    "c04_panic_set",
    "c04_no_panic_past_length",
    "c04_line_panics"
   ],
   "note": ""
  },
  {
   "property": "C05",
   "status": "proved",
   "theorems": [
    "c05_single_frame"
   ],
   "note": ""
  },
  {
   "property": "C06",
   "status": "proved",
   "theorems": [
    "c06_reassembly"
   ],
   "note": ""
  },
  {
   "property": "C07",
   "status": "proved",
   "theorems": [
    "c07_independent",
    "c07_parsed_frames_ok"
   ],
   "note": ""
  },
  {
   "property": "C08",
   "status": "proved",
   "theorems": [
    "c08_transfer_key",
    "c08_touches_only_own",
    "c08_merged"
   ],
   "note": ""
  },
  {
   "property": "C09",
   "status": "proved",
   "theorems": [
    "c09_no_invention"
   ],
   "note": ""
  },
  {
   "property": "C10",
   "status": "proved",
   "theorems": [
    "c10_unexpected_frame",
    "c10_gap"
   ],
   "note": ""
  },
  {
   "property": "C11",
   "status": "proved",
   "theorems": [
    "c11_panic_set"
   ],
   "note": ""
  },
  {
   "property": "C12",
   "status": "proved",
   "theorems": [
    "c12_reads_stream",
    "c12_reads_stream_cr",
    "c12_ack_reprocesses_refuted"
   ],
   "note": ""
  },
  {
   "property": "C13",
   "status": "proved",
   "theorems": [
    "c13_resync",
    "c13_garbage_forgotten",
    "c13_closed",
    "c13_io_error"
   ],
   "note": ""
  },
  {
   "property": "C14",
   "status": "proved",
   "theorems": [
    "c14_send_single",
    "c14_roundtrip",
    "c14_edp_lost_refuted"
   ],
   "note": ""
  },
  {
   "property": "C15",
   "status": "proved",
   "theorems": [
    "c15_send_too_much",
    "c15_send_too_little",
    "c15_send_reports",
    "c15_write_long",
    "c15_write_panics"
   ],
   "note": ""
  },
  {
   "property": "C16",
   "status": "proved",
   "theorems": [
    "c16_send_fast"
   ],
   "note": ""
  },
  {
   "property": "C17",
   "status": "proved",
   "theorems": [
    "c17_long_fast_refuted"
   ],
   "note": ""
  },
  {
   "property": "C18",
   "status": "proved",
   "theorems": [
    "c18_claim",
    "c18_conflicts",
    "c18_reserved_address_refuted"
   ],
   "note": "the claim is sent to destination 225, not to the global address"
  },
  {
   "property": "C19",
   "status": "proved",
   "theorems": [
    "c19_open",
    "c19_close_panics"
   ],
   "note": ""
  },
  {
   "property": "C20",
   "status": "proved",
   "theorems": [
    "c20_envelope",
    "c20_public_write"
   ],
   "note": ""
  },
  {
   "property": "C21",
   "status": "proved",
   "theorems": [
    "c21_round_trip",
    "c21_ten_byte_messages_lost"
   ],
   "note": ""
  },
  {
   "property": "C22",
   "status": "proved",
   "theorems": [
    "c22_stream",
    "c22_resynchronises",
    "c22_truncated_swallows_next",
    "c22_bad_escape_discards",
    "c22_empty_read_repeats_byte"
   ],
   "note": ""
  },
  {
   "property": "C23",
   "status": "proved",
   "theorems": [
    "c23_n2k_decoding",
    "c23_data_has_length",
    "c23_checksum_taken_as_data"
   ],
   "note": ""
  },
  {
   "property": "C24",
   "status": "proved",
   "theorems": [
    "c24_ngt_decoding",
    "c24_well_formed"
   ],
   "note": ""
  },
  {
   "property": "C25",
   "status": "proved",
   "theorems": [
    "c25_crash_set",
    "c25_no_other_crash"
   ],
   "note": ""
  },
  {
   "property": "C26",
   "status": "proved",
   "theorems": [
    "c26_send"
   ],
   "note": ""
  },
  {
   "property": "C27",
   "status": "proved",
   "theorems": [
    "c27_commands",
    "c27_unimplemented_commands",
    "c27_setters_are_getters",
    "c27_open"
   ],
   "note": ""
  },
  {
   "property": "C28",
   "status": "proved",
   "theorems": [
    "C28_first",
    "C28_last",
    "C28_total",
    "C28_range"
   ],
   "note": ""
  },
  {
   "property": "C29",
   "status": "proved",
   "theorems": [
    "C29_offsets",
    "C29_out_of_range",
    "C41_position"
   ],
   "note": ""
  },
  {
   "property": "C30",
   "status": "proved",
   "theorems": [
    "C30_raw_bits",
    "C30_inside",
    "C30_straddling",
    "C30_fails_iff",
    "C30_table_straddling"
   ],
   "note": ""
  },
  {
   "property": "C31",
   "status": "proved",
   "theorems": [
    "C31_signed",
    "C31_other_widths",
    "C31_table"
   ],
   "note": ""
  },
  {
   "property": "C32",
   "status": "proved",
   "theorems": [
    "C32_scaled",
    "C32_relative_error",
    "C32_table",
    "C32_not_available_refuted"
   ],
   "note": ""
  },
  {
   "property": "C33",
   "status": "proved",
   "theorems": [
    "C33_four_bytes",
    "C33_eight_bytes",
    "C33_other_sizes",
    "C33_precision"
   ],
   "note": ""
  },
  {
   "property": "C34",
   "status": "proved",
   "theorems": [
    "C34_dates",
    "C34_size"
   ],
   "note": ""
  },
  {
   "property": "C35",
   "status": "proved",
   "theorems": [
    "C35_times",
    "C35_size"
   ],
   "note": ""
  },
  {
   "property": "C36",
   "status": "proved",
   "theorems": [
    "C36_temperature",
    "C36_pressure",
    "C36_size"
   ],
   "note": ""
  },
  {
   "property": "C37",
   "status": "proved",
   "theorems": [
    "C37_ascii",
    "C37_stringlz",
    "C37_stringlz_plain"
   ],
   "note": ""
  },
  {
   "property": "C38",
   "status": "proved",
   "theorems": [
    "C38_lookup",
    "C38_distinct",
    "C38_manufacturer",
    "C38_tables_ok",
    "C38_two_level",
    "C38_two_level_table",
    "C38_device_function_keys"
   ],
   "note": ""
  },
  {
   "property": "C39",
   "status": "proved",
   "theorems": [
    "C39_header_and_keys"
   ],
   "note": ""
  },
  {
   "property": "C40",
   "status": "proved",
   "theorems": [
    "C40_any_table",
    "C40_terminates",
    "C40_result_unique"
   ],
   "note": "a run takes at most 16 steps per data byte plus 119"
  },
  {
   "property": "C41",
   "status": "proved",
   "theorems": [
    "C41_fields",
    "C41_meaning",
    "C41_meaning_unique",
    "C41_position",
    "C41_unsigned"
   ],
   "note": "C41_meaning: the value of every field of every shipped definition in terms of the message bytes (NmeaMeaning.v)"
  },
  {
   "property": "C42",
   "status": "proved",
   "theorems": [
    "C42_decoding",
    "C42_decoding_unique",
    "C42_choice",
    "C42_first_definition",
    "C42_never_passes",
    "C42_first_always_126720_refuted",
    "C42_runs_past_refuted",
    "C42_not_rechecked_refuted"
   ],
   "note": ""
  },
  {
   "property": "C43",
   "status": "proved",
   "theorems": [
    "C43_no_panic",
    "C43_crashes",
    "C43_exact"
   ],
   "note": "the crashing PGNs are exactly 60928, 130816, 130820, 130842, 130847, 262211, 262212 and 262213, and for each the crashing messages are characterised by their bytes (CrashSpec.fatal)"
  },
  {
   "property": "C44",
   "status": "proved",
   "theorems": [
    "C44_only_the_message",
    "C44_address_claim_refuted"
   ],
   "note": ""
  },
  {
   "property": "C45",
   "status": "proved",
   "theorems": [
    "C45_ignores_argument"
   ],
   "note": ""
  },
  {
   "property": "C46",
   "status": "proved",
   "theorems": [
    "C46_fields",
    "C46_fails_iff",
    "C46_malformed"
   ],
   "note": ""
  },
  {
   "property": "C47",
   "status": "proved",
   "theorems": [
    "C47_json_keys",
    "C47_decoded"
   ],
   "note": ""
  },
  {
   "property": "C48",
   "status": "proved",
   "theorems": [
    "C48_print",
    "C48_print_any",
    "C48_text",
    "C48_import",
    "C48_import_refuted"
   ],
   "note": ""
  },
  {
   "property": "C49",
   "status": "proved",
   "theorems": [
    "C49_sound"
   ],
   "note": ""
  },
  {
   "property": "C50",
   "status": "proved",
   "theorems": [
    "C50_contributions",
    "C50_appears"
   ],
   "note": ""
  },
  {
   "property": "C51",
   "status": "proved",
   "theorems": [
    "C51_never_empty",
    "C51_panics_iff",
    "C51_error_iff",
    "C51_shipped_never_panics"
   ],
   "note": "error characterised through the contributions of the fields; exact set of crashing mapping groups"
  },
  {
   "property": "C52",
   "status": "proved",
   "theorems": [
    "C50_contributions"
   ],
   "note": "per field at most one value"
  },
  {
   "property": "C53",
   "status": "proved",
   "theorems": [
    "C53_order_irrelevant",
    "C53_order_matters_refuted",
    "C53_shipped_separate",
    "C53_shipped"
   ],
   "note": "also with fieldsets when no plain mapping touches their fields, as in the shipped table"
  },
  {
   "property": "C54",
   "status": "proved",
   "theorems": [
    "C54_conditions",
    "C54_known",
    "C54_unknown_ignores_rest",
    "C54_same_width",
    "C54_numeric_order_refuted",
    "C54_130820_never_maps_refuted"
   ],
   "note": "the two shipped mappings of PGN 130820 never fire on decoded messages"
  },
  {
   "property": "C55",
   "status": "proved",
   "theorems": [
    "C55_text",
    "C55_instant",
    "C55_utc",
    "C55_other_zones_refuted",
    "C55_fieldset_once",
    "C55_system_time",
    "C55_canboat_refuted",
    "denotes_fun"
   ],
   "note": ""
  },
  {
   "property": "C56",
   "status": "proved",
   "theorems": [
    "C56_path",
    "C56_placeholder",
    "C56_same_repetition",
    "C56_repetitions",
    "C56_late_group_refuted"
   ],
   "note": ""
  },
  {
   "property": "C57",
   "status": "proved",
   "theorems": [
    "C57_merge",
    "C57_has_all"
   ],
   "note": ""
  },
  {
   "property": "C58",
   "status": "proved",
   "theorems": [
    "C58_statistics",
    "C58_numeric_order_refuted"
   ],
   "note": "counters are 64-bit; the order is that of the decimal texts"
  },
  {
   "property": "C59",
   "status": "proved",
   "theorems": [
    "C59_filter",
    "C59_only_display",
    "C59_outputs"
   ],
   "note": ""
  },
  {
   "property": "C60",
   "status": "proved",
   "theorems": [
    "C60_prefix",
    "C60_complete",
    "C60_drop_iff",
    "C60_dropped",
    "C60_drained",
    "C60_others_unaffected",
    "C60_limit_exact"
   ],
   "note": ""
  },
  {
   "property": "C61",
   "status": "proved",
   "theorems": [
    "C61_no_panic",
    "C61_never_waits",
    "C61_bounded",
    "C61_unregister_dropped",
    "C61_unregister_once"
   ],
   "note": ""
  },
  {
   "property": "C62",
   "status": "proved",
   "theorems": [
    "C62_each_interface",
    "C62_only_interfaces",
    "C62_stream_order",
    "C62_stats_order",
    "C62_clients",
    "C62_hubs",
    "C62_hub_never_dies"
   ],
   "note": "for at most one canusb interface; with two see C73"
  },
  {
   "property": "C63",
   "status": "proved",
   "theorems": [
    "C63_summary",
    "C63_agrees",
    "C63_shipped"
   ],
   "note": ""
  },
  {
   "property": "C64",
   "status": "proved",
   "theorems": [
    "C64_case",
    "C64_ascii",
    "C64_index",
    "C64_shipped",
    "C64_partition",
    "C64_other_letter"
   ],
   "note": ""
  },
  {
   "property": "C65",
   "status": "proved",
   "theorems": [
    "C65_parts",
    "C65_details",
    "C65_xml_shipped"
   ],
   "note": ""
  },
  {
   "property": "C66",
   "status": "proved",
   "theorems": [
    "C66_blocks",
    "C66_arrives",
    "C66_get",
    "C66_leak",
    "C66_unbounded"
   ],
   "note": ""
  },
  {
   "property": "C67",
   "status": "proved",
   "theorems": [
    "C67_read",
    "C67_undecodable",
    "C67_start",
    "C67_always_on",
    "C67_explicit_refuted"
   ],
   "note": ""
  },
  {
   "property": "C68",
   "status": "proved",
   "theorems": [
    "C68_parts",
    "C68_division"
   ],
   "note": ""
  },
  {
   "property": "C69",
   "status": "proved",
   "theorems": [
    "C69_updates",
    "C69_keeps",
    "C69_defaults_fixed",
    "C69_repeat",
    "C69_interfaces",
    "C69_nil_map",
    "C69_rejected"
   ],
   "note": ""
  },
  {
   "property": "C70",
   "status": "proved",
   "theorems": [
    "C70_one_save",
    "C70_finishes",
    "C70_history",
    "C70_second_save_refuted",
    "C70_faults_refuted",
    "C70_concurrent",
    "C70_concurrent_refuted"
   ],
   "note": "file writes are modelled as appearing byte by byte in order"
  },
  {
   "property": "C71",
   "status": "proved",
   "theorems": [
    "C71_exact",
    "C71_no_directory",
    "C71_keys",
    "C71_location",
    "C71_link_works",
    "C71_clean",
    "C71_installed_url",
    "C71_installed_path",
    "C71_installed_url_refuted",
    "C71_link_refuted",
    "C71_hidden_refuted"
   ],
   "note": ""
  },
  {
   "property": "C72",
   "status": "proved",
   "theorems": [
    "C72_start"
   ],
   "note": ""
  },
  {
   "property": "C73",
   "status": "proved",
   "theorems": [
    "C73_two_adapters_refuted"
   ],
   "note": "the expectation that two adapters do not disturb each other is refuted"
  },
  {
   "property": "C74",
   "status": "proved",
   "theorems": [
    "C74_scanner",
    "C74_reads",
    "C74_lines",
    "C74_splits",
    "C74_unique",
    "C74_handled"
   ],
   "note": ""
  },
  {
   "property": "C75",
   "status": "proved",
   "theorems": [
    "C75_never_stuck",
    "C75_step",
    "C75_bounded",
    "C75_returns",
    "C75_reachable",
    "C75_takes_any"
   ],
   "note": ""
  },
  {
   "property": "C76",
   "status": "proved",
   "theorems": [
    "C76_messages",
    "C76_dead_link",
    "C76_dead_link_refuted",
    "C76_fixed",
    "C76_install",
    "C76_app_files",
    "C76_late_files",
    "C76_assets",
    "C76_not_found",
    "C76_api",
    "C76_redirect",
    "C76_websockets"
   ],
   "note": ""
  },
  {
   "property": "C77",
   "status": "proved",
   "theorems": [
    "C77_enabled",
    "C77_dies",
    "C77_update_kills_refuted"
   ],
   "note": ""
  },
  {
   "property": "C78",
   "status": "proved",
   "theorems": [
    "C78_restart",
    "C78_log_level",
    "C78_other_file",
    "C78_recover",
    "C78_silent_defaults"
   ],
   "note": "the TOML codec is a parameter here; C102 states the same with the codec modelled on bytes"
  },
  {
   "property": "C79",
   "status": "proved",
   "theorems": [
    "C79_leak",
    "C79_never_ends",
    "C79_finite",
    "C79_returns",
    "C79_end_reached",
    "C71_installed_path"
   ],
   "note": ""
  },
  {
   "property": "C80",
   "status": "proved",
   "theorems": [
    "C80_page",
    "C80_press",
    "C80_fixed",
    "C80_unmodified",
    "C80_uuid_shown",
    "C80_uuid_stored",
    "C80_dashes_refuted"
   ],
   "note": "The browser follows the HTML standard: text boxes drop line breaks (sanitize) and Number.parseInt (js_int) are parameters. C80_dashes_refuted: without a UUID in the file, saving the untouched page makes the UUID four dashes for good."
  },
  {
   "property": "C81",
   "status": "proved",
   "theorems": [
    "C81_generate",
    "C81_distinct",
    "C81_all"
   ],
   "note": "satori/go.uuid's NewV4 is modelled from its documentation: 16 random bytes with version and variant bits set."
  },
  {
   "property": "C82",
   "status": "proved",
   "theorems": [
    "C82_route",
    "C82_shows",
    "C82_not_in_table",
    "C82_index_refuted"
   ],
   "note": "C82_index_refuted: a PGN below 297 shows the entry with that index."
  },
  {
   "property": "C83",
   "status": "proved",
   "theorems": [
    "C83_source",
    "C83_level",
    "C83_option_case",
    "C83_lines",
    "C83_decoded",
    "C83_none_refuted"
   ],
   "note": "go-logging's LogLevel and thresholds are modelled from the library. C83_none_refuted: NONE in the file must be in upper case; a level's text that means nothing logs everything."
  },
  {
   "property": "C84",
   "status": "proved",
   "theorems": [
    "C84_text",
    "C84_lossless"
   ],
   "note": "The formatted time stamp is a parameter (a text without spaces)."
  },
  {
   "property": "C85",
   "status": "proved",
   "theorems": [
    "C85_cause",
    "C85_survives",
    "C85_in_order",
    "C85_files",
    "C85_line_kills",
    "C85_message_kills",
    "C85_any_map",
    "C85_map_kills",
    "C85_exact",
    "C85_exact_any",
    "C85_alive"
   ],
   "note": "For the shipped PGN table; for the shipped mappings, and with C85_any_map and C85_map_kills for any. The model's interface goroutines, consumer and hubs; enabling MQTT at run time, which also ends the program, is C77. Messages of the crash set are named exactly (CrashSpec.fatal); C85_exact also follows a fast packet message back to the frames it was put together from."
  },
  {
   "property": "C86",
   "status": "proved",
   "theorems": [
    "C86_written",
    "C86_sent",
    "C86_read",
    "C86_no_markup",
    "C86_years",
    "C86_exponent",
    "paths_MapXml",
    "json_unique",
    "C86_shortest"
   ],
   "note": "The delta's time stamp is the time of processing, not of reception. fmtv stands for fmt's %v of non-text values in paths."
  },
  {
   "property": "C87",
   "status": "proved",
   "theorems": [
    "C87_message",
    "C87_read",
    "C87_latin1_refuted"
   ],
   "note": "ParsedMessage.JSON is exported but not called by the program. C87_latin1_refuted: bytes that are not UTF-8 become U+FFFD."
  },
  {
   "property": "C88",
   "status": "proved",
   "theorems": [
    "C88_statistics"
   ],
   "note": ""
  },
  {
   "property": "C89",
   "status": "proved",
   "theorems": [
    "C89_index",
    "C89_no_markup"
   ],
   "note": ""
  },
  {
   "property": "C90",
   "status": "proved",
   "theorems": [
    "C90_uuid"
   ],
   "note": ""
  },
  {
   "property": "C91",
   "status": "proved",
   "theorems": [
    "C91_text",
    "C91_body",
    "C91_unique",
    "C91_json"
   ],
   "note": "The depth limit (10000 since Go 1.15, none before) is a parameter. After a body's value anything may follow: it is not read."
  },
  {
   "property": "C92",
   "status": "proved",
   "theorems": [
    "C92_settings",
    "C92_refused",
    "C92_answers"
   ],
   "note": "null is accepted as a document and as any member. A number needs to be written as an integer: 80.0 is refused."
  },
  {
   "property": "C93",
   "status": "proved",
   "theorems": [
    "C93_form"
   ],
   "note": "Number boxes: Number.parseInt's result as a JSON number, NaN as null."
  },
  {
   "property": "C94",
   "status": "proved",
   "theorems": [
    "C94_line",
    "C94_distinct",
    "C94_message",
    "C94_runs"
   ],
   "note": "Values of the wrong type are left out silently; a line that is no JSON is imported as PGN 0. The time stamp is not modelled."
  },
  {
   "property": "C95",
   "status": "proved",
   "theorems": [
    "C95_runs",
    "C95_answer",
    "C95_shown",
    "C95_refused",
    "C95_failed_shown_refuted"
   ],
   "note": "The expectation that a failed installation is not shown as installed is refuted."
  },
  {
   "property": "C96",
   "status": "proved",
   "theorems": [
    "C96_command",
    "C96_get",
    "C96_invalid_sent_refuted"
   ],
   "note": "The expectation that a refused body is not passed on is refuted. Nothing receives commands (C66)."
  },
  {
   "property": "C97",
   "status": "proved",
   "theorems": [
    "C97_options",
    "C97_unique",
    "C97_start",
    "C97_numbers",
    "C97_no_address",
    "C97_switch_word_refuted"
   ],
   "note": "Package flag and strconv of Go 1.13. The usage text is not modelled. strings.ToUpper on texts that are not ASCII is a parameter. The expectation that a switch takes its value from the next word is refuted."
  },
  {
   "property": "C98",
   "status": "proved",
   "theorems": [
    "C98_details",
    "C98_read",
    "C98_explain",
    "C98_dialog",
    "C98_names"
   ],
   "note": "The order in which a lookup table's values are listed differs from call to call (Go maps): the theorems hold for every order."
  },
  {
   "property": "C99",
   "status": "proved",
   "theorems": [
    "C99_apps",
    "C99_links",
    "C99_kept",
    "C99_same_place",
    "C99_percent",
    "C99_installed",
    "C99_settings",
    "C99_form"
   ],
   "note": "html/template (parsing, contextual escaping, escapers) is modelled from the library for the constructs these templates use; the browser's tokenizer is that of the HTML standard."
  },
  {
   "property": "C100",
   "status": "proved",
   "theorems": [
    "C100_loaded",
    "C100_one_meaning",
    "C100_shipped"
   ],
   "note": "encoding/xml (go 1.13) is modelled from the library; names with non-ASCII characters are decided by a parameter the theorems quantify over; Go's stack limit for nesting is left out; the accepted language is more liberal than XML 1.0 (see XmlSpec)."
  },
  {
   "property": "C101",
   "status": "proved",
   "theorems": [
    "C101_read",
    "C101_twice"
   ],
   "note": "burntsushi/toml v0.2.0 is modelled from the library; parts of TOML a configuration does not need and points where its releases differ are left to a parameter (see TomlModel), as is the order in which Go goes through maps."
  },
  {
   "property": "C102",
   "status": "proved",
   "theorems": [
    "C102_saved",
    "C102_restart",
    "C102_kept",
    "C102_unnamed",
    "C102_torn",
    "C102_torn_refuted",
    "C102_silent_defaults",
    "C102_names_refuted",
    "C102_speeds_refuted",
    "C102_renamed_refuted"
   ],
   "note": "The refuted statements: interface names with a backslash or speeds of 2^63 and more are saved without an error and make the next start fail or change the name; a crash during a save can leave an argo.conf that is accepted with other values."
  },
  {
   "property": "C103",
   "status": "proved",
   "theorems": [
    "C103_provenance",
    "C103_mqtt_order",
    "C103_mqtt",
    "C103_shipped"
   ],
   "note": "For any mapping file whose paths are bytes (XmlBytes.parsed_paths: every one that is accepted). The delivering is that of C105: frame by frame, byte by byte and line by line. A message imported from a file may be such that its text cannot be written; then it is not sent. That nothing is left out between a client's first and last text is C62_clients."
  },
  {
   "property": "C104",
   "status": "proved",
   "theorems": [
    "C104_usage",
    "C104_help",
    "C104_explain",
    "C104_no_file",
    "C104_no_config",
    "C104_no_map",
    "C104_no_broker",
    "C104_runs",
    "C104_starts",
    "C104_end_to_end",
    "C104_death"
   ],
   "note": "For configuration files in the modelled part of TOML whose tables are given once (toml_text, proper: C101). What -help prints and the end by a signal are not modelled. The delivering and the causes of death are those of C105 and C85_exact."
  },
  {
   "property": "C105",
   "status": "proved",
   "theorems": [
    "C105_wire",
    "C105_complete",
    "C105_complete_ngt",
    "C105_complete_file",
    "C105_function"
   ],
   "note": "Exact: the items are those that arrive in the part of the input read so far, no more and no fewer, in order. Any number of adapters of any type: frames of several CANUSB adapters share one reassembly buffer (C73), so what a frame gives depends on the history of the frames of all of them (WireSpec.history, WireSpec.gives); with one CANUSB adapter what an interface gives is determined by what was read from it (C105_function). A repeated carriage return makes the reader take an unfinished line again (WireSpec.used_up says when it does not). A frame of a fast packet PGN that continues no transfer is delivered as a message by itself."
  },
  {
   "property": "C106",
   "status": "proved",
   "theorems": [
    "C106_exact",
    "C106_manifest",
    "C106_null_refuted"
   ],
   "note": "Links in the file system are left out. C106_null_refuted: where \"keywords\" is given twice, a null element of the later array keeps the text of the earlier one, so a package is listed although its last keywords are [null] (word_at in PkgDiskSpec says exactly which text counts)."
  },
  {
   "property": "C107",
   "status": "proved",
   "theorems": [
    "C107_line",
    "C107_log",
    "C107_complete",
    "C107_finite",
    "C107_returns",
    "C107_ends",
    "C107_lost_refuted",
    "C107_hangs_refuted"
   ],
   "note": "The pipe and os/exec's Wait are modelled from the library's documentation; yarn is any process that writes a text and ends. C107_lost_refuted: Wait closes the pipe when yarn ends, so the same output may be reported or not. C107_hangs_refuted: an output for which every run ends without an answer."
  },
  {
   "property": "C108",
   "status": "proved",
   "theorems": [
    "C108_objects",
    "C108_refused",
    "C108_page",
    "C108_empty",
    "C108_method",
    "C108_install",
    "C108_request",
    "C108_cell",
    "C108_inject_refuted"
   ],
   "note": "Names with NUL or CR are outside C108_install (pages change them). C108_inject_refuted: handleAppInstall puts the app's name into the page as markup, so the registry can name an app such that pressing its button runs a script, whether the installation works or not."
  },
  {
   "property": "C109",
   "status": "proved",
   "theorems": [
    "C109_table",
    "C109_row",
    "C109_order_refuted"
   ],
   "note": "jQuery and the browser's tree building are modelled as what they do with these rows; JavaScript's text of whole numbers up to 2^53 is a hypothesis (exact_texts). C109_order_refuted: an execution whose table is not in ascending order."
  },
  {
   "property": "C110",
   "status": "proved",
   "theorems": [
    "C110_definition",
    "C110_page",
    "C110_read",
    "C110_answer",
    "C110_empty",
    "C110_entry3",
    "C110_verbatim",
    "C110_tables",
    "C110_lookups_refuted"
   ],
   "note": "C110_definition is for all definitions without two-level lookups, C110_page for the shipped table. C110_lookups_refuted: the XML page does not determine the definition, since PgnLookup.MarshalXML writes nothing."
  },
  {
   "property": "C111",
   "status": "proved",
   "theorems": [
    "C111_reads",
    "C111_faithful",
    "C111_distinct",
    "C111_octets",
    "C111_equal_number",
    "C111_stream",
    "C111_same_text_refuted",
    "C111_equal_decimal_refuted",
    "C111_130820_never_maps_refuted",
    "C111_absent_path_refuted",
    "C111_shortest"
   ],
   "note": "fmt's %v is concrete here; C111_stream and C111_130820_never_maps_refuted are C86_read and C54_130820_never_maps_refuted without their assumptions on it. The zone name is arbitrary, the offset constant. The refuted ones: an absent value reads as the text <nil> in conditions and paths, a number as its numeral, and \"1.0\" never equals a floating point field."
  },
  {
   "property": "C112",
   "status": "proved",
   "theorems": [
    "C112_fixed",
    "C112_close",
    "C112_value",
    "C112_stamp",
    "C112_raw",
    "C112_line",
    "C112_precision_refuted",
    "C112_one_line_refuted"
   ],
   "note": "C48_text, C83 and C84 leave fmt's texts open; here they are concrete. C112_precision_refuted: two positions that PGN 129025 tells apart have the same line. C112_one_line_refuted: texts are not escaped, so a line break in one breaks the line."
  }
 ]
}
