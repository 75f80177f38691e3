CLAIMS = {
"C01": ("proved", ["c01_registry_exact", "c01_registry_exact_any", "c01_add_grows", "reachable_registry_ok", "C01_startup", "C01_long_definitions_refuted"], "44 PGNs have a definition longer than a frame but are never reassembled"),
"C02": ("proved", ["c02_parse_exact", "c02_encode_parse"], ""),
"C03": ("proved", ["c03_identifier"], ""),
"C04": ("proved", ["c04_panic_set", "c04_no_panic_past_length", "c04_line_panics"], ""),
"C05": ("proved", ["c05_single_frame"], ""),
"C06": ("proved", ["c06_reassembly"], ""),
"C07": ("proved", ["c07_independent", "c07_parsed_frames_ok"], ""),
"C08": ("proved", ["c08_transfer_key", "c08_touches_only_own", "c08_merged"], ""),
"C09": ("proved", ["c09_no_invention"], ""),
"C10": ("proved", ["c10_unexpected_frame", "c10_gap"], ""),
"C11": ("proved", ["c11_panic_set"], ""),
"C12": ("proved", ["c12_reads_stream", "c12_reads_stream_cr", "c12_ack_reprocesses_refuted"], ""),
"C13": ("proved", ["c13_resync", "c13_garbage_forgotten", "c13_closed", "c13_io_error"], ""),
"C14": ("proved", ["c14_send_single", "c14_roundtrip", "c14_edp_lost_refuted"], ""),
"C15": ("proved", ["c15_send_too_much", "c15_send_too_little", "c15_send_reports", "c15_write_long", "c15_write_panics"], ""),
"C16": ("proved", ["c16_send_fast"], ""),
"C17": ("proved", ["c17_long_fast_refuted"], ""),
"C18": ("proved", ["c18_claim", "c18_conflicts", "c18_reserved_address_refuted"], "the claim is sent to destination 225, not to the global address"),
"C19": ("proved", ["c19_open", "c19_close_panics"], ""),
"C20": ("proved", ["c20_envelope", "c20_public_write"], ""),
"C21": ("proved", ["c21_round_trip", "c21_ten_byte_messages_lost"], ""),
"C22": ("proved", ["c22_stream", "c22_resynchronises", "c22_truncated_swallows_next", "c22_bad_escape_discards", "c22_empty_read_repeats_byte"], ""),
"C23": ("proved", ["c23_n2k_decoding", "c23_data_has_length", "c23_checksum_taken_as_data"], ""),
"C24": ("proved", ["c24_ngt_decoding", "c24_well_formed"], ""),
"C25": ("proved", ["c25_crash_set", "c25_no_other_crash"], ""),
"C26": ("proved", ["c26_send"], ""),
"C27": ("proved", ["c27_commands", "c27_unimplemented_commands", "c27_setters_are_getters", "c27_open"], ""),
"C28": ("proved", ["C28_first", "C28_last", "C28_total", "C28_range"], ''),
"C29": ("proved", ["C29_offsets", "C29_out_of_range", "C41_position"], ''),
"C30": ("proved", ["C30_raw_bits", "C30_inside", "C30_straddling", "C30_fails_iff", "C30_table_straddling"], ''),
"C31": ("proved", ["C31_signed", "C31_other_widths", "C31_table"], ''),
"C32": ("proved", ["C32_scaled", "C32_relative_error", "C32_table", "C32_not_available_refuted"], ''),
"C33": ("proved", ["C33_four_bytes", "C33_eight_bytes", "C33_other_sizes", "C33_precision"], ''),
"C34": ("proved", ["C34_dates", "C34_size"], ''),
"C35": ("proved", ["C35_times", "C35_size"], ''),
"C36": ("proved", ["C36_temperature", "C36_pressure", "C36_size"], ''),
"C37": ("proved", ["C37_ascii", "C37_stringlz", "C37_stringlz_plain"], ''),
"C38": ("proved", ["C38_lookup", "C38_distinct", "C38_manufacturer", "C38_tables_ok", "C38_two_level", "C38_two_level_table", "C38_device_function_keys"], ''),
"C39": ("proved", ["C39_header_and_keys"], ''),
"C40": ("proved", ["C40_any_table", "C40_terminates", "C40_result_unique"], 'a run takes at most 16 steps per data byte plus 119'),
"C41": ("proved", ["C41_fields", "C41_meaning", "C41_meaning_unique", "C41_position", "C41_unsigned"], 'C41_meaning: the value of every field of every shipped definition in terms of the message bytes (NmeaMeaning.v)'),
"C42": ("proved", ["C42_decoding", "C42_decoding_unique", "C42_choice", "C42_first_definition", "C42_never_passes", "C42_first_always_126720_refuted", "C42_runs_past_refuted", "C42_not_rechecked_refuted"], ''),
"C43": ("proved", ["C43_no_panic", "C43_crashes", "C43_exact"], 'the crashing PGNs are exactly 60928, 130816, 130820, 130842, 130847, 262211, 262212 and 262213, and for each the crashing messages are characterised by their bytes (CrashSpec.fatal)'),
"C44": ("proved", ["C44_only_the_message", "C44_address_claim_refuted"], ''),
"C45": ("proved", ["C45_ignores_argument"], ''),
"C46": ("proved", ["C46_fields", "C46_fails_iff", "C46_malformed"], ''),
"C47": ("proved", ["C47_json_keys", "C47_decoded"], ''),
"C48": ("proved", ["C48_print", "C48_print_any", "C48_text", "C48_import", "C48_import_refuted"], ''),
"C49": ("proved", ["C49_sound"], ''),
"C50": ("proved", ["C50_contributions", "C50_appears"], ''),
"C51": ("proved", ["C51_never_empty", "C51_panics_iff", "C51_error_iff", "C51_shipped_never_panics"], 'error characterised through the contributions of the fields; exact set of crashing mapping groups'),
"C52": ("proved", ["C50_contributions"], 'per field at most one value'),
"C53": ("proved", ["C53_order_irrelevant", "C53_order_matters_refuted", "C53_shipped_separate", "C53_shipped"], 'also with fieldsets when no plain mapping touches their fields, as in the shipped table'),
"C54": ("proved", ["C54_conditions", "C54_known", "C54_unknown_ignores_rest", "C54_same_width", "C54_numeric_order_refuted", "C54_130820_never_maps_refuted"], 'the two shipped mappings of PGN 130820 never fire on decoded messages'),
"C55": ("proved", ["C55_text", "C55_instant", "C55_utc", "C55_other_zones_refuted", "C55_fieldset_once", "C55_system_time", "C55_canboat_refuted", "denotes_fun"], ''),
"C56": ("proved", ["C56_path", "C56_placeholder", "C56_same_repetition", "C56_repetitions", "C56_late_group_refuted"], ''),
"C57": ("proved", ["C57_merge", "C57_has_all"], ''),
"C58": ("proved", ["C58_statistics", "C58_numeric_order_refuted"], "counters are 64-bit; the order is that of the decimal texts"),
"C59": ("proved", ["C59_filter", "C59_only_display", "C59_outputs"], ""),
"C60": ("proved", ["C60_prefix", "C60_complete", "C60_drop_iff", "C60_dropped", "C60_drained", "C60_others_unaffected", "C60_limit_exact"], ''),
"C61": ("proved", ["C61_no_panic", "C61_never_waits", "C61_bounded", "C61_unregister_dropped", "C61_unregister_once"], ''),
"C62": ("proved", ["C62_each_interface", "C62_only_interfaces", "C62_stream_order", "C62_stats_order", "C62_clients", "C62_hubs", "C62_hub_never_dies"], "for at most one canusb interface; with two see C73"),
"C75": ("proved", ["C75_never_stuck", "C75_step", "C75_bounded", "C75_returns", "C75_reachable", "C75_takes_any"], ""),
"C72": ("proved", ["C72_start"], ""),
"C73": ("proved", ["C73_two_adapters_refuted"], "the expectation that two adapters do not disturb each other is refuted"),
"C74": ("proved", ["C74_scanner", "C74_reads", "C74_lines", "C74_splits", "C74_unique", "C74_handled"], ""),
"C63": ("proved", ["C63_summary", "C63_agrees", "C63_shipped"], ""),
"C64": ("proved", ["C64_case", "C64_ascii", "C64_index", "C64_shipped", "C64_partition", "C64_other_letter"], ""),
"C65": ("proved", ["C65_parts", "C65_details", "C65_xml_shipped"], ""),
"C66": ("proved", ["C66_blocks", "C66_arrives", "C66_get", "C66_leak", "C66_unbounded"], ""),
"C76": ("proved", ["C76_messages", "C76_dead_link", "C76_dead_link_refuted", "C76_fixed", "C76_install", "C76_app_files", "C76_late_files", "C76_assets", "C76_not_found", "C76_api", "C76_redirect", "C76_websockets"], ""),
"C67": ("proved", ["C67_read", "C67_undecodable", "C67_start", "C67_always_on", "C67_explicit_refuted"], ""),
"C68": ("proved", ["C68_parts", "C68_division"], ""),
"C69": ("proved", ["C69_updates", "C69_keeps", "C69_defaults_fixed", "C69_repeat", "C69_interfaces", "C69_nil_map", "C69_rejected"], ""),
"C70": ("proved", ["C70_one_save", "C70_finishes", "C70_history", "C70_second_save_refuted", "C70_faults_refuted", "C70_concurrent", "C70_concurrent_refuted"], "file writes are modelled as appearing byte by byte in order"),
"C71": ("proved", ["C71_exact", "C71_no_directory", "C71_keys", "C71_location", "C71_link_works", "C71_clean", "C71_installed_url", "C71_installed_path", "C71_installed_url_refuted", "C71_link_refuted", "C71_hidden_refuted"], ""),
"C77": ("proved", ["C77_enabled", "C77_dies", "C77_update_kills_refuted"], ""),
"C78": ("proved", ["C78_restart", "C78_log_level", "C78_other_file", "C78_recover", "C78_silent_defaults"], "the TOML codec is a parameter here; C102 states the same with the codec modelled on bytes"),
"C79": ("proved", ["C79_leak", "C79_never_ends", "C79_finite", "C79_returns", "C79_end_reached", "C71_installed_path"], ""),
"C80": ("proved", ["C80_page", "C80_press", "C80_fixed", "C80_unmodified", "C80_uuid_shown", "C80_uuid_stored", "C80_dashes_refuted"], "The browser follows the HTML standard: text boxes drop line breaks (sanitize) and Number.parseInt (js_int) are parameters. C80_dashes_refuted: without a UUID in the file, saving the untouched page makes the UUID four dashes for good."),
"C81": ("proved", ["C81_generate", "C81_distinct", "C81_all"], "satori/go.uuid's NewV4 is modelled from its documentation: 16 random bytes with version and variant bits set."),
"C82": ("proved", ["C82_route", "C82_shows", "C82_not_in_table", "C82_index_refuted"], "C82_index_refuted: a PGN below 297 shows the entry with that index."),
"C83": ("proved", ["C83_source", "C83_level", "C83_option_case", "C83_lines", "C83_decoded", "C83_none_refuted"], "go-logging's LogLevel and thresholds are modelled from the library. C83_none_refuted: NONE in the file must be in upper case; a level's text that means nothing logs everything."),
"C84": ("proved", ["C84_text", "C84_lossless"], "The formatted time stamp is a parameter (a text without spaces)."),
"C85": ("proved", ["C85_cause", "C85_survives", "C85_in_order", "C85_files", "C85_line_kills", "C85_message_kills", "C85_any_map", "C85_map_kills", "C85_exact", "C85_exact_any", "C85_alive"], "For the shipped PGN table; for the shipped mappings, and with C85_any_map and C85_map_kills for any. The model's interface goroutines, consumer and hubs; enabling MQTT at run time, which also ends the program, is C77. Messages of the crash set are named exactly (CrashSpec.fatal); C85_exact also follows a fast packet message back to the frames it was put together from."),
"C86": ("proved", ["C86_written", "C86_sent", "C86_read", "C86_no_markup", "C86_years", "C86_exponent", "paths_MapXml", "json_unique"], "The delta's time stamp is the time of processing, not of reception. fmtv stands for fmt's %v of non-text values in paths."),
"C87": ("proved", ["C87_message", "C87_read", "C87_latin1_refuted"], "ParsedMessage.JSON is exported but not called by the program. C87_latin1_refuted: bytes that are not UTF-8 become U+FFFD."),
"C88": ("proved", ["C88_statistics"], ""),
"C89": ("proved", ["C89_index", "C89_no_markup"], ""),
"C90": ("proved", ["C90_uuid"], ""),
"C91": ("proved", ["C91_text", "C91_body", "C91_unique", "C91_json"], "The depth limit (10000 since Go 1.15, none before) is a parameter. After a body's value anything may follow: it is not read."),
"C92": ("proved", ["C92_settings", "C92_refused", "C92_answers"], "null is accepted as a document and as any member. A number needs to be written as an integer: 80.0 is refused."),
"C93": ("proved", ["C93_form"], "Number boxes: Number.parseInt's result as a JSON number, NaN as null."),
"C94": ("proved", ["C94_line", "C94_distinct", "C94_message", "C94_runs"], "Values of the wrong type are left out silently; a line that is no JSON is imported as PGN 0. The time stamp is not modelled."),
"C95": ("proved", ["C95_runs", "C95_answer", "C95_shown", "C95_refused", "C95_failed_shown_refuted"], "The expectation that a failed installation is not shown as installed is refuted."),
"C96": ("proved", ["C96_command", "C96_get", "C96_invalid_sent_refuted"], "The expectation that a refused body is not passed on is refuted. Nothing receives commands (C66)."),
"C97": ("proved", ["C97_options", "C97_unique", "C97_start", "C97_numbers", "C97_no_address", "C97_switch_word_refuted"], "Package flag and strconv of Go 1.13. The usage text is not modelled. strings.ToUpper on texts that are not ASCII is a parameter. The expectation that a switch takes its value from the next word is refuted."),
"C98": ("proved", ["C98_details", "C98_read", "C98_explain", "C98_dialog", "C98_names"], "The order in which a lookup table's values are listed differs from call to call (Go maps): the theorems hold for every order."),
"C99": ("proved", ["C99_apps", "C99_links", "C99_kept", "C99_same_place", "C99_percent", "C99_installed", "C99_settings", "C99_form"], "html/template (parsing, contextual escaping, escapers) is modelled from the library for the constructs these templates use; the browser's tokenizer is that of the HTML standard."),
"C100": ("proved", ["C100_loaded", "C100_one_meaning", "C100_shipped"], "encoding/xml (go 1.13) is modelled from the library; names with non-ASCII characters are decided by a parameter the theorems quantify over; Go's stack limit for nesting is left out; the accepted language is more liberal than XML 1.0 (see XmlSpec)."),
"C101": ("proved", ["C101_read", "C101_twice"], "burntsushi/toml v0.2.0 is modelled from the library; parts of TOML a configuration does not need and points where its releases differ are left to a parameter (see TomlModel), as is the order in which Go goes through maps."),
"C102": ("proved", ["C102_saved", "C102_restart", "C102_kept", "C102_unnamed", "C102_torn", "C102_torn_refuted", "C102_silent_defaults", "C102_names_refuted", "C102_speeds_refuted", "C102_renamed_refuted"], "The refuted statements: interface names with a backslash or speeds of 2^63 and more are saved without an error and make the next start fail or change the name; a crash during a save can leave an argo.conf that is accepted with other values."),
"C103": ("proved", ["C103_provenance", "C103_mqtt_order", "C103_mqtt", "C103_shipped"], "For any mapping file whose paths are bytes (XmlBytes.parsed_paths: every one that is accepted). The delivering is that of C105: frame by frame, byte by byte and line by line. A message imported from a file may be such that its text cannot be written; then it is not sent. That nothing is left out between a client's first and last text is C62_clients."),
"C104": ("proved", ["C104_usage", "C104_help", "C104_explain", "C104_no_file", "C104_no_config", "C104_no_map", "C104_no_broker", "C104_runs", "C104_starts", "C104_end_to_end", "C104_death"], "For configuration files in the modelled part of TOML whose tables are given once (toml_text, proper: C101). What -help prints and the end by a signal are not modelled. The delivering and the causes of death are those of C105 and C85_exact."),
"C105": ("proved", ["C105_wire", "C105_complete", "C105_complete_ngt", "C105_complete_file", "C105_function"], "Exact: the items are those that arrive in the part of the input read so far, no more and no fewer, in order. Any number of adapters of any type: frames of several CANUSB adapters share one reassembly buffer (C73), so what a frame gives depends on the history of the frames of all of them (WireSpec.history, WireSpec.gives); with one CANUSB adapter what an interface gives is determined by what was read from it (C105_function). A repeated carriage return makes the reader take an unfinished line again (WireSpec.used_up says when it does not). A frame of a fast packet PGN that continues no transfer is delivered as a message by itself."),
"C106": ("proved", ["C106_exact", "C106_manifest", "C106_null_refuted"], "Links in the file system are left out. C106_null_refuted: where \"keywords\" is given twice, a null element of the later array keeps the text of the earlier one, so a package is listed although its last keywords are [null] (word_at in PkgDiskSpec says exactly which text counts)."),
"C107": ("proved", ["C107_line", "C107_log", "C107_complete", "C107_finite", "C107_returns", "C107_ends", "C107_lost_refuted", "C107_hangs_refuted"], "The pipe and os/exec's Wait are modelled from the library's documentation; yarn is any process that writes a text and ends. C107_lost_refuted: Wait closes the pipe when yarn ends, so the same output may be reported or not. C107_hangs_refuted: an output for which every run ends without an answer."),
"C108": ("proved", ["C108_objects", "C108_refused", "C108_page", "C108_empty", "C108_method", "C108_install", "C108_request", "C108_cell", "C108_inject_refuted"], "Names with NUL or CR are outside C108_install (pages change them). C108_inject_refuted: handleAppInstall puts the app's name into the page as markup, so the registry can name an app such that pressing its button runs a script, whether the installation works or not."),
"C109": ("proved", ["C109_table", "C109_row", "C109_order_refuted"], "jQuery and the browser's tree building are modelled as what they do with these rows; JavaScript's text of whole numbers up to 2^53 is a hypothesis (exact_texts). C109_order_refuted: an execution whose table is not in ascending order."),
"C110": ("proved", ["C110_definition", "C110_page", "C110_read", "C110_answer", "C110_empty", "C110_entry3", "C110_verbatim", "C110_tables", "C110_lookups_refuted"], "C110_definition is for all definitions without two-level lookups, C110_page for the shipped table. C110_lookups_refuted: the XML page does not determine the definition, since PgnLookup.MarshalXML writes nothing."),
"C111": ("proved", ["C111_reads", "C111_faithful", "C111_distinct", "C111_octets", "C111_equal_number", "C111_stream", "C111_same_text_refuted", "C111_equal_decimal_refuted", "C111_130820_never_maps_refuted", "C111_absent_path_refuted"], "fmt's %v is concrete here; C111_stream and C111_130820_never_maps_refuted are C86_read and C54_130820_never_maps_refuted without their assumptions on it. The zone name is arbitrary, the offset constant. The refuted ones: an absent value reads as the text <nil> in conditions and paths, a number as its numeral, and \"1.0\" never equals a floating point field."),
"C112": ("proved", ["C112_fixed", "C112_close", "C112_value", "C112_stamp", "C112_raw", "C112_line", "C112_precision_refuted", "C112_one_line_refuted"], "C48_text, C83 and C84 leave fmt's texts open; here they are concrete. C112_precision_refuted: two positions that PGN 129025 tells apart have the same line. C112_one_line_refuted: texts are not escaped, so a line break in one breaks the line."),
}
