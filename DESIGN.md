# Formal model of timmathews/argo in Rocq (Coq 8.16.1)

## What is modelled and how

The model is a shallow embedding: every Go function becomes a Coq function over `Z`,
lists and records, written function by function, with the file and lines it models in a comment.

| files | what they are |
|---|---|
| `GoBase`, `BufFacts` | the Go subset: integers with explicit wrap-around, byte strings, slices with capacity, the three outcomes return / error / panic; facts about it |
| `Strconv`, `StrconvFacts` | the strconv / fmt functions argo calls |
| `CanModel`, `CanusbModel`, `CanusbSpec`; `CanusbRegistry`, `CanusbParse`, `CanusbFast`, `CanusbRead`, `CanusbSend`; `CanusbProps` | can/can.go, canusb/canframe.go, canusb/canport.go: model, specification, proofs, theorems C01-C19 |
| `ActisenseModel`, `ActisenseSpec`, `ActisenseProofs`, `ActisenseProps` | actisense/actisense.go, actisense/commands.go: C20-C27 |
| `NmeaTypes`, `NmeaFloat`, `NmeaModel` | nmea2k/raw_message.go, nmea2k/parsed_message.go, First / Last / FieldOffsets of pgn_array.go; floating point (binary32/binary64) |
| `NmeaSpec`, `NmeaMeaning`, `CrashSpec` | what the decoding properties mean: bits, widths, texts, names, rounding; what every kind of field means; what a whole message decodes to; which messages crash the decoder |
| `NmeaExtract`, `NmeaParse`, `NmeaTerm`, `NmeaSafe`, `NmeaSingle`, `NmeaCrash`; `NmeaProps1`-`NmeaProps4` | proofs; theorems C28-C48 |
| `PgnTable`, `LookupTable`, `MapTable` | generated from pgn_array.go, lookups.go and map.xml by `tools/gen_tables.py` and `tools/gen_map.py` |
| `SignalkModel`, `SignalkSpec`; `SignalkText`, `SignalkTime`, `SignalkSplit`, `SignalkDelta`; `SignalkProps`, `SignalkProps2` | signalk/signalk.go: C49-C57 |
| `HubModel`, `HubSpec`, `HubProps` | main/websocket_server.go: C60, C61 |
| `MainModel`, `MainSpec`, `MainProps` | the functions of main/argo.go: C58, C59, C72, C74 |
| `PipelineModel`, `PipelineSpec`; `PipelineProofs`, `PipelineLive`, `PipelineBoot`; `PipelineProps`, `PipelineExamples` | the goroutines of the program and their channels as a transition system: C62, C66, C73, C75 |
| `WireSpec`, `WireFast`, `WireAct`, `WireProps` | exactly what each interface delivers, position by position of its input, for any number of interfaces (`WireFast`: the fast packet buffer after a history of frames; `WireAct`: the Actisense reader after its input): C105 and the exact causes of death of C85 |
| `EndToEnd` | what clients and the broker receive, traced back through all stages to what the interfaces delivered: C103 |
| `XmlBytes` | texts of an accepted mapping file are made of bytes (used by C104) |
| `StartModel`, `StartSpec`, `StartProps` | `main` from the command line and the files to the running program, and what it then does: C104 |
| `ApiModel`, `ApiSpec`, `ApiProps` | main/api_server.go and the routing of both HTTP servers: C63-C65, C76 |
| `ConfigModel`, `ConfigSpec`, `ConfigProps`, `SaveProps` | config/config.go, main/ui_server.go (admin), the live configuration, saving: C67-C70, C77, C78 |
| `PackagesModel`, `PackagesSpec`, `PackagesProps`; `PkgDiskModel`, `PkgDiskSpec`, `PkgDiskProps`; `YarnModel`, `YarnSpec`, `YarnProps`; `AppsModel`, `AppsSpec`, `AppsProps` | main/packages.go: C71, C79; with the texts of the package.json files: C106; yarn's output during an installation: C107; the page of apps (main/ui_server.go appsHandler, assets/js/site.js handleAppInstall): C108 |
| `StatsPageModel`, `StatsPageSpec`, `StatsPageProps` | assets/js/site.js lines 44-64, the table of statistics: C109 |
| `FormModel`, `FormSpec`, `FormProps` | templates/index.gtpl, assets/js/site.js, uuidHandler: C80-C82 |
| `LogModel`, `LogSpec`, `LogProps` | log level and the lines written per message (argo.go, flags.go, can.go, parsed_message.go): C48, C83, C84 |
| `DeathSpec`; `DeathProps`, `DeathKill`, `DeathOrder`, `DeathExamples` | what ends the running program: C85 |
| `FtoaModel`, `JsonModel`, `JsonSpec`; `FtoaFacts`, `JsonFacts`, `JsonLayout`, `JsonDecoded`, `JsonUnique`; `JsonProps`, `JsonHtml`, `JsonForm` | strconv's shortest float formatting, encoding/json's encoder, Time.MarshalJSON, and the JSON the program writes; JSON as a grammar: C86-C90 |
| `UnjsonModel`, `UnjsonSpec`; `UnjsonLex`, `UnjsonParse`, `UnjsonFloat`, `UnjsonDecode`, `UnjsonTyped`; `UnjsonProps`, `UnjsonProps2` | encoding/json's decoder: the texts accepted, strconv.ParseFloat, and decoding into settings, CanBoat lines and requests: C91-C94 |
| `InstallModel`, `InstallProps` | /apps/install, the page's callback and /signalk/v1/api/control/send on the bytes of their requests: C95, C96 |
| `ScannerModel`, `ScannerProps` | bufio.Scanner's buffer and reads, refined to the lines of a file: C74 |
| `FlagsModel`, `FlagsSpec`, `FlagsNum`, `FlagsProps` | the command line (flags.go, package flag, strconv.ParseInt with base 0): C97 |
| `PgnTexts`, `DetailsModel`, `DetailsSpec`, `DetailsProps` | the definitions as JSON: details page, -explain, dialog of the statistics page; `PgnTexts` is generated by tools/gen_tables.py: C98 |
| `XmlOutModel`, `XmlOutSpec`, `XmlOutProps` | the definitions as XML: details page with .xml, xml.Marshal and its escapes: C110 |
| `FmtvModel`, `FmtvSpec`, `FmtvProps` | fmt's %v on the values of a message, in conditions and paths: C111 |
| `FtoaShortSpec`, `FtoaShort` | the decimal of a floating point number has as few digits as can be: C86, C111 |
| `LogTextModel`, `LogTextSpec`, `LogTextProps` | fmt's %f and the time stamps in the log: C112 |
| `PagesText`, `HtmlModel`, `HtmlSpec`, `HtmlProps`, `HtmlSettings` | the two pages and html/template, read by the HTML tokenizer; `PagesText` is generated by tools/gen_pages.py: C99 |
| `MapText`, `XmlModel`, `XmlSpec`; `XmlLex`, `XmlParse`, `XmlTree`, `XmlDecode`; `XmlProps` | the mapping file: encoding/xml's decoder and ParseMappings on bytes, XML as a grammar, what a document says; `MapText` is generated by tools/gen_pages.py: C100 |
| `TomlModel`, `TomlSpec`; `TomlLex`, `TomlTree`, `TomlDecode`, `TomlSave`; `TomlProps`, `TomlTwice`, `TomlRestart` | the configuration file: the TOML library's decoder and encoder on bytes, TOML as a grammar, what a file says: C101, C102 |

A `*Spec.v` file states what the English properties mean without using the model's functions
(encoders, bit fields, segmentation, filters, histories), the `*Props*.v` files hold the theorems the
manifest lists, with `Example`s beside them that meet their hypotheses.

Conventions:
- panics are outcomes: a panic in a goroutine of argo kills the process, so "never panics" is a
  theorem about the outcome, and panic sets are characterised exactly where possible;
- nondeterminism (map iteration order, goroutine scheduling, port behaviour, crash points) is a
  universally quantified parameter;
- where the code does not do what a user would expect, the property states exactly what it does,
  and a companion theorem with suffix `_refuted` shows the stronger expectation false;
- a theorem that proves only part of a property has the suffix `_partial`.

## Properties: what is modelled, how it is proved

<!-- table -->
- **C01 Fast packet registry is exactly the set of registered PGNs** (proved). List model of the package variable; strict-sortedness invariant by induction; binary search loop invariant; table part over the generated PGN table. Theorems: `c01_registry_exact`, `c01_registry_exact_any`, `c01_add_grows`, `reachable_registry_ok`, `C01_startup`, `C01_long_definitions_refuted`.
- **C02 ParseFrame accepts exactly the LAWICEL frame syntax** (proved). Grammar as an independent inductive/boolean spec; equivalence proof; round trip against an encoder written in the spec file. Theorems: `c02_parse_exact`, `c02_encode_parse`.
- **C03 Identifier decoding follows ISO 11783 PDU1/PDU2** (proved). Bit-level model with Z.land/Z.shiftr; div/mod spec; reconstruction theorem. Theorems: `c03_identifier`.
- **C04 ParseFrame crashes exactly on texts cut before the length digit** (proved). Slices with capacity; exact characterisation of the Panic outcome, plus the set reachable from Read. Theorems: `c04_panic_set`, `c04_no_panic_past_length`, `c04_line_panics`.
- **C05 Single-frame PGNs are delivered unchanged and statelessly** (proved). One-step theorem over an arbitrary state. Theorems: `c05_single_frame`.
- **C06 In-order fast packets are reassembled exactly** (proved). Induction over the frame sequence against an independent segmentation function. Theorems: `c06_reassembly`.
- **C07 Transfers from different senders do not disturb each other** (proved). Commutation/projection theorem by induction over histories. Theorems: `c07_independent`, `c07_parsed_frames_ok`.
- **C08 What identifies a transfer** (proved). Injectivity of the uid on its range; collision theorems for group+4 and destination. Theorems: `c08_transfer_key`, `c08_touches_only_own`, `c08_merged`.
- **C09 Reassembled payloads are never invented** (proved). History invariant linking every stored partial message to received frames. Theorems: `c09_no_invention`.
- **C10 Lost or reordered continuation frames** (proved). One-step theorem plus induction over suffixes lacking the missing number. Theorems: `c10_unexpected_frame`, `c10_gap`.
- **C11 Reassembly crash condition** (proved). Exact characterisation of the Panic outcome. Theorems: `c11_panic_set`.
- **C12 Read delivers the frames of a byte stream in order** (proved). Induction over the stream against a splitting spec. Theorems: `c12_reads_stream`, `c12_reads_stream_cr`, `c12_ack_reprocesses_refuted`.
- **C13 Read recovers from garbage** (proved). Resynchronisation theorem over arbitrary loop state; companion theorem on repeated CR reprocessing a rejected frame. Theorems: `c13_resync`, `c13_garbage_forgotten`, `c13_closed`, `c13_io_error`.
- **C14 Single-frame Send round trips through the wire format** (proved). Composition of the writer and parser models; EDP loss as a companion refutation. Theorems: `c14_send_single`, `c14_roundtrip`, `c14_edp_lost_refuted`.
- **C15 Invalid sends write nothing** (proved). Case analysis on the outcome model. Theorems: `c15_send_too_much`, `c15_send_too_little`, `c15_send_reports`, `c15_write_long`, `c15_write_panics`.
- **C16 Fast-packet Send round trips for 9..192 bytes** (proved). Induction over the send loop, composed with C06-style reassembly for 6-byte segments. Theorems: `c16_send_fast`.
- **C17 Fast-packet Send of 193..223 bytes cannot be received** (proved). Negative theorem about the sent frame sequence. Theorems: `c17_long_fast_refuted`.
- **C18 Address claim** (proved). NAME fields by bit extraction spec; iteration theorem for conflicts. Theorems: `c18_claim`, `c18_conflicts`, `c18_reserved_address_refuted`.
- **C19 Opening and closing the CANUSB channel** (proved). W_log trace theorem; CloseChannel negative theorem. Theorems: `c19_open`, `c19_close_panics`.
- **C20 Actisense envelope** (proved). Independent envelope spec; sum theorem by induction. Theorems: `c20_envelope`, `c20_public_write`.
- **C21 Actisense escaping round trip** (proved). Composition of writer and receiver state machine; exact iff theorem. Theorems: `c21_round_trip`, `c21_ten_byte_messages_lost`.
- **C22 Actisense Read delivers messages in order and resynchronises** (proved). Induction over the stream; resync theorem from any state. Theorems: `c22_stream`, `c22_resynchronises`, `c22_truncated_swallows_next`, `c22_bad_escape_discards`, `c22_empty_read_repeats_byte`.
- **C23 N2K message decoding from the NGT** (proved). Exact outcome theorem against a layout spec. Theorems: `c23_n2k_decoding`, `c23_data_has_length`, `c23_checksum_taken_as_data`.
- **C24 NGT status message decoding** (proved). Exact outcome theorem with slice capacity. Theorems: `c24_ngt_decoding`, `c24_well_formed`.
- **C25 Crash set of the Actisense receiver** (proved). Exact characterisation of Panic. Theorems: `c25_crash_set`, `c25_no_other_crash`.
- **C26 Actisense Send layout and limits** (proved). Exact outcome theorem. Theorems: `c26_send`.
- **C27 NGT command encodings** (proved). Payload table as spec; one theorem per command family. Theorems: `c27_commands`, `c27_unimplemented_commands`, `c27_setters_are_getters`, `c27_open`.
- **C28 PGN lookup** (proved). Generic loop theorem plus checked table theorem. Theorems: `C28_first`, `C28_last`, `C28_total`, `C28_range`.
- **C29 Field offsets are bit prefix sums** (proved). Loop invariant. Theorems: `C29_offsets`, `C29_out_of_range`, `C41_position`.
- **C30 Numeric fields are the little-endian bit field** (proved). Bit-level proof with Z.testbit / div-mod. Theorems: `C30_raw_bits`, `C30_inside`, `C30_straddling`, `C30_fails_iff`, `C30_table_straddling`.
- **C31 Signedness of numeric fields** (proved). Conversion theorem, table theorem, refutation for other widths. Theorems: `C31_signed`, `C31_other_widths`, `C31_table`.
- **C32 Scaled values are correctly rounded** (proved). SpecFloat binary64 model; real-number rounding theorem via Flocq. Theorems: `C32_scaled`, `C32_relative_error`, `C32_table`, `C32_not_available_refuted`.
- **C33 Latitude and longitude** (proved). SpecFloat models, Flocq error bound. Theorems: `C33_four_bytes`, `C33_eight_bytes`, `C33_other_sizes`, `C33_precision`.
- **C34 Dates** (proved). Exact arithmetic theorem plus refutation. Theorems: `C34_dates`, `C34_size`.
- **C35 Times of day** (proved). Exact arithmetic theorem plus refutation of sub-second accuracy. Theorems: `C35_times`, `C35_size`.
- **C36 Temperature and pressure fields** (proved). Exact theorem with SpecFloat. Theorems: `C36_temperature`, `C36_pressure`, `C36_size`.
- **C37 Text fields** (proved). List specs; exact outcome theorems. Theorems: `C37_ascii`, `C37_stringlz`, `C37_stringlz_plain`.
- **C38 Lookups** (proved). Exact theorem; table-level theorem for lookupDeviceFunction. Theorems: `C38_lookup`, `C38_distinct`, `C38_manufacturer`, `C38_tables_ok`, `C38_two_level`, `C38_two_level_table`, `C38_device_function_keys`.
- **C39 ParsePacket keeps the header and numbers fields consecutively** (proved). Invariant of the parse loop. Theorems: `C39_header_and_keys`.
- **C40 ParsePacket terminates** (proved). Ranking argument: bit position strictly increases along every repeat of a table entry. Theorems: `C40_any_table`, `C40_terminates`, `C40_result_unique`.
- **C41 Decoding a PGN with one definition** (proved). Refinement to an unrolled-field-list spec. Theorems: `C41_fields`, `C41_meaning`, `C41_meaning_unique`, `C41_position`, `C41_unsigned`.
- **C42 Choosing among several definitions** (proved). Invariant plus concrete reachable overrun witnesses. Theorems: `C42_decoding`, `C42_decoding_unique`, `C42_choice`, `C42_first_definition`, `C42_never_passes`, `C42_first_always_126720_refuted`, `C42_runs_past_refuted`, `C42_not_rechecked_refuted`.
- **C43 Crash set of ParsePacket** (proved). Safety invariant over the loop, generic in the definition, instantiated by a table check. Theorems: `C43_no_panic`, `C43_crashes`, `C43_exact`.
- **C44 Decoding depends only on the message's data bytes** (proved). Non-interference theorem over slices. Theorems: `C44_only_the_message`, `C44_address_claim_refuted`.
- **C45 Definition accessor ignores its argument** (proved). Direct theorem with the quantified argument; refutation of the expected contract. Theorems: `C45_ignores_argument`.
- **C46 Importing CanBoat JSON lines** (proved). Model after JSON decoding; permutation-invariance theorem. Theorems: `C46_fields`, `C46_fails_iff`, `C46_malformed`.
- **C47 JSON field keys** (proved). Injectivity of decimal printing. Theorems: `C47_json_keys`, `C47_decoded`.
- **C48 Printing a decoded message** (proved). Index correspondence between the two loops. Theorems: `C48_print`, `C48_print_any`, `C48_text`, `C48_import`, `C48_import_refuted`.
- **C49 Signal K updates are sound** (proved). Invariant of the nested loops for an arbitrary iteration order. Theorems: `C49_sound`.
- **C50 Signal K updates are complete for plain mappings** (proved). Liveness of the nested loops. Theorems: `C50_contributions`, `C50_appears`.
- **C51 Delta fails exactly when nothing maps** (proved). Direct. Theorems: `C51_never_empty`, `C51_panics_iff`, `C51_error_iff`, `C51_shipped_never_panics`.
- **C52 At most one value per field** (proved). UsedFields invariant. Theorems: `C50_contributions`.
- **C53 Iteration order of the field map is irrelevant** (proved). Permutation invariance; refutation witness. Theorems: `C53_order_irrelevant`, `C53_order_matters_refuted`, `C53_shipped_separate`, `C53_shipped`.
- **C54 Conditions** (proved). Equivalence with forall spec; refutation of numeric order. Theorems: `C54_conditions`, `C54_known`, `C54_unknown_ignores_rest`, `C54_same_width`, `C54_numeric_order_refuted`, `C54_130820_never_maps_refuted`.
- **C55 Date-time fieldsets** (proved). Civil-calendar model; theorem for offset 0 and counterexample otherwise. Theorems: `C55_text`, `C55_instant`, `C55_utc`, `C55_other_zones_refuted`, `C55_fieldset_once`, `C55_system_time`, `C55_canboat_refuted`, `denotes_fun`.
- **C56 Path notation and placeholders** (proved). String-replace model; index arithmetic theorem. Theorems: `C56_path`, `C56_placeholder`, `C56_same_repetition`, `C56_repetitions`, `C56_late_group_refuted`.
- **C57 Used-field bookkeeping** (proved). Pointwise map theorems. Theorems: `C57_merge`, `C57_has_all`.
- **C58 Statistics are exact** (proved). Fold invariant. Theorems: `C58_statistics`, `C58_numeric_order_refuted`.
- **C59 Display filter** (proved). Direct iff. Theorems: `C59_filter`, `C59_only_display`, `C59_outputs`.
- **C60 Websocket delivery** (proved). Transition system; invariant relating queue, delivered list and broadcast log. Theorems: `C60_prefix`, `C60_complete`, `C60_drop_iff`, `C60_dropped`, `C60_drained`, `C60_others_unaffected`, `C60_limit_exact`.
- **C61 The hub never crashes or blocks without unregister** (proved). Safety invariant; refutation with unregister. Theorems: `C61_no_panic`, `C61_never_waits`, `C61_bounded`, `C61_unregister_dropped`, `C61_unregister_once`.
- **C62 Messages of each interface are processed once and in order** (proved). Transition system over unbuffered channels. Theorems: `C62_each_interface`, `C62_only_interfaces`, `C62_stream_order`, `C62_stats_order`, `C62_clients`, `C62_hubs`, `C62_hub_never_dies`.
- **C63 PGN summaries** (proved). Generic theorem plus table theorem. Theorems: `C63_summary`, `C63_agrees`, `C63_shipped`.
- **C64 Message index filtering** (proved). List filter equivalence. Theorems: `C64_case`, `C64_ascii`, `C64_index`, `C64_shipped`, `C64_partition`, `C64_other_letter`.
- **C65 Message details** (proved). Exact outcome theorem using the ParseInt model; link/route mismatch theorem. Theorems: `C65_parts`, `C65_details`, `C65_xml_shipped`.
- **C66 The send-command endpoint never completes** (proved). Invariant over the transition system of channel operations. Theorems: `C66_blocks`, `C66_arrives`, `C66_get`, `C66_leak`, `C66_unbounded`.
- **C67 Defaults fill exactly the unset options** (proved). Record model; exact merge theorem; refutation of honouring explicit false. Theorems: `C67_read`, `C67_undecodable`, `C67_start`, `C67_always_on`, `C67_explicit_refuted`.
- **C68 Vessel UUID parts** (proved). Split/join theorem. Theorems: `C68_parts`, `C68_division`.
- **C69 Admin updates never overwrite a set option** (proved). Merge idempotence and monotonicity over sequences. Theorems: `C69_updates`, `C69_keeps`, `C69_defaults_fixed`, `C69_repeat`, `C69_interfaces`, `C69_nil_map`, `C69_rejected`.
- **C70 Crash safety of configuration saving** (proved). Step model of file operations with torn writes; invariant and counterexample. Theorems: `C70_one_save`, `C70_finishes`, `C70_history`, `C70_second_save_refuted`, `C70_faults_refuted`, `C70_concurrent`, `C70_concurrent_refuted`.
- **C71 Installed web apps** (proved). Tree model, structural induction. Theorems: `C71_exact`, `C71_no_directory`, `C71_keys`, `C71_location`, `C71_link_works`, `C71_clean`, `C71_installed_url`, `C71_installed_path`, `C71_installed_url_refuted`, `C71_link_refuted`, `C71_hidden_refuted`.
- **C72 Which interfaces can be started** (proved). Exact iff on the boot function. Theorems: `C72_start`.
- **C73 Two CANUSB adapters** (proved). Refutation by a concrete execution of the program model. Theorems: `C73_two_adapters_refuted`.
- **C74 File interface** (proved). Line-splitting specification, induction over the content. Theorems: `C74_scanner`, `C74_reads`, `C74_lines`, `C74_splits`, `C74_unique`, `C74_handled`.
- **C75 The pipeline never blocks on clients** (proved). Progress: never stuck, decreasing measure. Theorems: `C75_never_stuck`, `C75_step`, `C75_bounded`, `C75_returns`, `C75_reachable`, `C75_takes_any`.
- **C76 Which handler answers a request** (proved). Functional model of the two routers and the standard multiplexer; theorems for all app lists; refutation of the link. Theorems: `C76_messages`, `C76_dead_link`, `C76_dead_link_refuted`, `C76_fixed`, `C76_install`, `C76_app_files`, `C76_late_files`, `C76_assets`, `C76_not_found`, `C76_api`, `C76_redirect`, `C76_websockets`.
- **C77 Enabling MQTT while the program runs** (proved). Transition model of the live configuration; exact iff by induction over the history. Theorems: `C77_enabled`, `C77_dies`, `C77_update_kills_refuted`.
- **C78 The saved configuration is the one found at the next start** (proved). Composition of the start, update and save models; the TOML codec is a parameter assumed to restore what it wrote. Theorems: `C78_restart`, `C78_log_level`, `C78_other_file`, `C78_recover`, `C78_silent_defaults`.
- **C79 Installing an app** (proved). Two-process model of the shared channel; invariant over all interleavings. Theorems: `C79_leak`, `C79_never_ends`, `C79_finite`, `C79_returns`, `C79_end_reached`, `C71_installed_path`.
- **C80 The settings page** (proved). Model of the template, the script and the merge; per option theorems and induction over submissions. Theorems: `C80_page`, `C80_press`, `C80_fixed`, `C80_unmodified`, `C80_uuid_shown`, `C80_uuid_stored`, `C80_dashes_refuted`.
- **C81 Generated UUIDs** (proved). Hexadecimal coding is injective and onto; bit fields by complete case analysis on a byte. Theorems: `C81_generate`, `C81_distinct`, `C81_all`.
- **C82 Links of the statistics table** (proved). Composition of the routing theorem and the details theorem. Theorems: `C82_route`, `C82_shows`, `C82_not_in_table`, `C82_index_refuted`.
- **C83 Log level** (proved). EqualFold theorem (C64) and case analysis; composition with C67 and C48. Theorems: `C83_source`, `C83_level`, `C83_option_case`, `C83_lines`, `C83_decoded`, `C83_none_refuted`.
- **C84 Raw dump** (proved). Injectivity of decimal and hexadecimal text and of splitting at separators. Theorems: `C84_text`, `C84_lossless`.
- **C85 What ends the running program** (proved). Invariant over executions that relates every reader to the input it has consumed; panic conditions per component; the consumer and the hubs cannot panic. Theorems: `C85_cause`, `C85_survives`, `C85_in_order`, `C85_files`, `C85_line_kills`, `C85_message_kills`, `C85_any_map`, `C85_map_kills`, `C85_exact`, `C85_exact_any`, `C85_alive`.
- **C86 Deltas as JSON** (proved). Model of strconv's shortest float formatting (round trip proved with Flocq), of encoding/json's encoder and of Time.MarshalJSON; JSON as an inductive grammar with unique meaning; every decoded value is encodable. Theorems: `C86_written`, `C86_sent`, `C86_read`, `C86_no_markup`, `C86_years`, `C86_exponent`, `C86_shortest`, `paths_MapXml`, `json_unique`.
- **C87 Messages as JSON** (proved). As C86, with the sorted string keys of DataMap.MarshalJSON as a permutation. Theorems: `C87_message`, `C87_read`, `C87_latin1_refuted`.
- **C88 Statistics as JSON** (proved). C58 composed with the JSON grammar. Theorems: `C88_statistics`.
- **C89 Index page as JSON** (proved). Induction over the table, JSON layout theorem for MarshalIndent. Theorems: `C89_index`, `C89_no_markup`.
- **C90 Generated UUID as JSON** (proved). C81 composed with the JSON layout theorem. Theorems: `C90_uuid`.
- **C91 JSON the program reads** (proved). Model of encoding/json's scanner and unquoting as a recursive descent; grammar as inductive relations; soundness and completeness by mutual induction. Theorems: `C91_text`, `C91_body`, `C91_unique`, `C91_json`.
- **C92 Settings documents** (proved). Decoder model over the parsed value; each setting projected out of the fold over the members; typing relation equivalent to the error flag. Theorems: `C92_settings`, `C92_refused`, `C92_answers`.
- **C93 From the form to the settings** (proved). C91 and C92 composed with the form model. Theorems: `C93_form`.
- **C94 Lines of CanBoat files, from their text** (proved). C91 composed with C46 and C85; correctly rounded decimal conversion proved with Flocq. Theorems: `C94_line`, `C94_distinct`, `C94_message`, `C94_runs`.
- **C95 Installing an app** (proved). Model of the handler on the bytes of the request; JSON grammar for the answers; model of the page's callback. Theorems: `C95_runs`, `C95_answer`, `C95_shown`, `C95_refused`, `C95_failed_shown_refuted`.
- **C96 Commands posted to the API** (proved). C91 and the decoder model. Theorems: `C96_command`, `C96_get`, `C96_invalid_sent_refuted`.
- **C97 The command line** (proved). Model of package flag and of strconv.ParseInt with base 0 against a grammar of command lines and integer literals. Theorems: `C97_options`, `C97_unique`, `C97_start`, `C97_numbers`, `C97_no_address`, `C97_switch_word_refuted`.
- **C98 Definitions as JSON** (proved). The table with its texts generated from the source, json.MarshalIndent's layout (C86) and the unique reading of JSON texts. Theorems: `C98_details`, `C98_read`, `C98_explain`, `C98_dialog`, `C98_names`.
- **C99 The pages as browsers read them** (proved). The templates verbatim, html/template's parsing and contextual escaping, read back by the tokenizer of the HTML standard. Theorems: `C99_apps`, `C99_links`, `C99_kept`, `C99_same_place`, `C99_percent`, `C99_installed`, `C99_settings`, `C99_form`.
- **C100 The mapping file as text** (proved). Encoding/xml's tokenizer and Unmarshal modelled on bytes; soundness by induction on fuel, completeness by mutual induction on the XML grammar; the shipped file's bytes generated verbatim. Theorems: `C100_loaded`, `C100_one_meaning`, `C100_shipped`.
- **C101 The configuration file as text** (proved). The TOML library's lexer, parser and struct decoding modelled on bytes; the lexer is exact for a grammar of TOML texts, the parser for the tables and values of a text, the decoding by the outcome of each option. Theorems: `C101_read`, `C101_twice`.
- **C102 A saved configuration is found by the next start** (proved). The encoder modelled on bytes; its output is a document of the TOML grammar (C101) that says the configuration; prefixes of documents at line ends are documents. Theorems: `C102_saved`, `C102_restart`, `C102_kept`, `C102_unnamed`, `C102_torn`, `C102_torn_refuted`, `C102_silent_defaults`, `C102_names_refuted`, `C102_speeds_refuted`, `C102_renamed_refuted`.
- **C103 Every text a client receives comes from a message an interface delivered** (proved). Composition of the executions of PipelineModel (C62) with C49 (every value justified), C44 and C86 (the text reads back). Theorems: `C103_provenance`, `C103_mqtt_order`, `C103_mqtt`, `C103_shipped`.
- **C104 From the command line and the files to the running program** (proved). StartModel composes the models of the parts; the theorems compose C97, C101, C67, C83, C98, C100 and C103 / C85. Theorems: `C104_usage`, `C104_help`, `C104_explain`, `C104_no_file`, `C104_no_config`, `C104_no_map`, `C104_no_broker`, `C104_runs`, `C104_starts`, `C104_end_to_end`, `C104_death`.
- **C105 Every message handled was on the wire, in order, and none is lost** (proved). Invariant over the runs of PipelineModel relating each reader's state to the input it has read (C01-C08, C17, C22, C62). Theorems: `C105_wire`, `C105_complete`, `C105_complete_ngt`, `C105_complete_file`, `C105_function`.
- **C106 Installed web apps, from the files on disk** (proved). Encoding/json's decoder on bytes (C91), its filling of structures and of slices, composed with the tree scan of C71. Theorems: `C106_exact`, `C106_manifest`, `C106_null_refuted`.
- **C107 Progress and end of an app installation** (proved). Small-step model of the process, its pipe, the scanner goroutine and Wait; invariant over all runs, termination measure; the line's JSON by C91's decoder. Theorems: `C107_line`, `C107_log`, `C107_complete`, `C107_finite`, `C107_returns`, `C107_ends`, `C107_lost_refuted`, `C107_hangs_refuted`.
- **C108 The page of apps from the registry's answer, and its Install buttons** (proved). Encoding/json into the nested slices and structures by typed-decoder lemmas, composed with C106 (disk), C99 (template) and C95 (installation). Theorems: `C108_objects`, `C108_refused`, `C108_page`, `C108_empty`, `C108_method`, `C108_install`, `C108_request`, `C108_cell`, `C108_inject_refuted`.
- **C109 The statistics table of the page** (proved). The page's handler with JavaScript's order of members, by invariant over the snapshots, composed with C62 (pipeline), C60 (delivery), C88 (JSON). Theorems: `C109_table`, `C109_row`, `C109_order_refuted`.
- **C110 Definitions as XML** (proved). Xml.Marshal by reflection on the two structures, its escapes and FormatFloat 'g'; shown to be elements of the XML grammar of C100, whose reading is unique. Theorems: `C110_definition`, `C110_page`, `C110_read`, `C110_answer`, `C110_empty`, `C110_entry3`, `C110_verbatim`, `C110_tables`, `C110_lookups_refuted`.
- **C111 How a value reads in a condition or a path** (proved). Fmt's %v on the kinds of values of a message as functions, with the shortest decimal of C86; a relation per kind of text from which the value is recovered. Theorems: `C111_reads`, `C111_shortest`, `C111_faithful`, `C111_distinct`, `C111_octets`, `C111_equal_number`, `C111_stream`, `C111_same_text_refuted`, `C111_equal_decimal_refuted`, `C111_130820_never_maps_refuted`, `C111_absent_path_refuted`.
- **C112 What the log says of a value** (proved). Fmt's %f as exact integer arithmetic on the binary value, shown to be Flocq's rounding to nearest even; the time layout; C48_text for the line around them. Theorems: `C112_fixed`, `C112_close`, `C112_value`, `C112_stamp`, `C112_raw`, `C112_line`, `C112_precision_refuted`, `C112_one_line_refuted`.
<!-- /table -->

## Trusted base

- Coq's kernel (8.16.1, including `vm_compute`), `coqchk` as a second check; no axioms of our own. What
  `Print Assumptions` lists for each theorem is in the section "Assumptions" below. Only theorems about
  real-number rounding use axioms (those of Coq's real numbers, through Flocq).
- The translation from Go to the model, done by hand (by script for the three tables).

### Not modelled

How time stamps are taken, log records other than the two per message, the serial driver, net/http below the choice of the handler, gorilla websocket
framing, MsgPack, the MQTT protocol, yarn itself and its network traffic, the
Go scheduler's fairness (only safety, and progress of every maximal run, are claimed) and the memory model (two
canusb interfaces share package variables without locks; the model treats each frame as processed
atomically, and C73 shows the interference that remains even so), the explorer UI in JavaScript.

### Modelling choices

- `int` is 64 bits wide; 32-bit and smaller types wrap around explicitly. Out-of-range float-to-integer
  conversions are left to a parameter (`platform`), as the Go specification does.
- A slice is its content up to its capacity plus a length, so that reading beyond the length is visible.
- Serial ports are scripts of read results (bytes, nothing, end of file, error) and a log of writes with
  arbitrary write outcomes.
- Maps are association lists; where Go ranges over a map the order is a universally quantified
  permutation.
- TOML, JSON and mergo: in C67-C78 the decoded value is the model's input, and TOML's encoder and decoder are
  parameters with the only hypothesis that decoding restores what was encoded; the decoding is modelled and
  composed with them in C92-C96 (JSON), C106 (package.json), C108 (the registry's answers) and C101, C102
  (TOML). The TOML library is burntsushi/toml v0.2.0; what the configuration does not need and
  where its releases differ is an arbitrary function (`other`, `lax`). Whether mergo leaves
  a nil map nil is a parameter (`nilp`), since the version is not pinned.
- Configuration files are written byte by byte, in order, by a sequence of write steps; a crash may happen
  between any two of them, and each operation may fail.
- The packages tree: a directory that cannot be listed counts as empty below the top level; symbolic links
  are not followed specially.
- Goroutines: each channel operation of the program is one step of a transition system, with unbuffered
  and buffered channels as in the code; everything between two channel operations is atomic.

## Assumptions

Written by `tools/assumptions.py`, which runs `Print Assumptions` on every theorem of the manifest.

- Closed under the global context (no axioms), 400 theorems: `c01_registry_exact`, `c01_registry_exact_any`, `c01_add_grows`, `reachable_registry_ok`, `C01_startup`, `C01_long_definitions_refuted`, `c02_parse_exact`, `c02_encode_parse`, `c03_identifier`, `c04_panic_set`, `c04_no_panic_past_length`, `c04_line_panics`, `c05_single_frame`, `c06_reassembly`, `c07_independent`, `c07_parsed_frames_ok`, `c08_transfer_key`, `c08_touches_only_own`, `c08_merged`, `c09_no_invention`, `c10_unexpected_frame`, `c10_gap`, `c11_panic_set`, `c12_reads_stream`, `c12_reads_stream_cr`, `c12_ack_reprocesses_refuted`, `c13_resync`, `c13_garbage_forgotten`, `c13_closed`, `c13_io_error`, `c14_send_single`, `c14_roundtrip`, `c14_edp_lost_refuted`, `c15_send_too_much`, `c15_send_too_little`, `c15_send_reports`, `c15_write_long`, `c15_write_panics`, `c16_send_fast`, `c17_long_fast_refuted`, `c18_claim`, `c18_conflicts`, `c18_reserved_address_refuted`, `c19_open`, `c19_close_panics`, `c20_envelope`, `c20_public_write`, `c21_round_trip`, `c21_ten_byte_messages_lost`, `c22_stream`, `c22_resynchronises`, `c22_truncated_swallows_next`, `c22_bad_escape_discards`, `c22_empty_read_repeats_byte`, `c23_n2k_decoding`, `c23_data_has_length`, `c23_checksum_taken_as_data`, `c24_ngt_decoding`, `c24_well_formed`, `c25_crash_set`, `c25_no_other_crash`, `c26_send`, `c27_commands`, `c27_unimplemented_commands`, `c27_setters_are_getters`, `c27_open`, `C28_first`, `C28_last`, `C28_total`, `C28_range`, `C29_offsets`, `C29_out_of_range`, `C41_position`, `C30_raw_bits`, `C30_inside`, `C30_straddling`, `C30_fails_iff`, `C30_table_straddling`, `C31_signed`, `C31_other_widths`, `C31_table`, `C33_other_sizes`, `C34_dates`, `C34_size`, `C35_times`, `C35_size`, `C36_size`, `C37_ascii`, `C37_stringlz`, `C37_stringlz_plain`, `C38_lookup`, `C38_distinct`, `C38_manufacturer`, `C38_tables_ok`, `C38_two_level_table`, `C38_device_function_keys`, `C39_header_and_keys`, `C40_any_table`, `C40_terminates`, `C40_result_unique`, `C41_fields`, `C41_unsigned`, `C42_choice`, `C42_first_definition`, `C42_never_passes`, `C42_first_always_126720_refuted`, `C42_runs_past_refuted`, `C42_not_rechecked_refuted`, `C43_no_panic`, `C43_crashes`, `C43_exact`, `C44_only_the_message`, `C44_address_claim_refuted`, `C45_ignores_argument`, `C46_fields`, `C46_fails_iff`, `C46_malformed`, `C47_json_keys`, `C47_decoded`, `C48_print`, `C48_print_any`, `C48_text`, `C48_import`, `C48_import_refuted`, `C49_sound`, `C50_contributions`, `C50_appears`, `C51_never_empty`, `C51_panics_iff`, `C51_error_iff`, `C51_shipped_never_panics`, `C53_order_irrelevant`, `C53_order_matters_refuted`, `C53_shipped_separate`, `C53_shipped`, `C54_conditions`, `C54_known`, `C54_unknown_ignores_rest`, `C54_same_width`, `C54_numeric_order_refuted`, `C54_130820_never_maps_refuted`, `C55_text`, `C55_instant`, `C55_utc`, `C55_other_zones_refuted`, `C55_fieldset_once`, `C55_system_time`, `C55_canboat_refuted`, `denotes_fun`, `C56_path`, `C56_placeholder`, `C56_same_repetition`, `C56_repetitions`, `C56_late_group_refuted`, `C57_merge`, `C57_has_all`, `C58_statistics`, `C58_numeric_order_refuted`, `C59_filter`, `C59_only_display`, `C59_outputs`, `C60_prefix`, `C60_complete`, `C60_drop_iff`, `C60_dropped`, `C60_drained`, `C60_others_unaffected`, `C60_limit_exact`, `C61_no_panic`, `C61_never_waits`, `C61_bounded`, `C61_unregister_dropped`, `C61_unregister_once`, `C62_each_interface`, `C62_only_interfaces`, `C62_stream_order`, `C62_stats_order`, `C62_clients`, `C62_hubs`, `C62_hub_never_dies`, `C63_summary`, `C63_agrees`, `C63_shipped`, `C64_case`, `C64_ascii`, `C64_index`, `C64_shipped`, `C64_partition`, `C64_other_letter`, `C65_parts`, `C65_details`, `C65_xml_shipped`, `C66_blocks`, `C66_arrives`, `C66_get`, `C66_leak`, `C66_unbounded`, `C67_read`, `C67_undecodable`, `C67_start`, `C67_always_on`, `C67_explicit_refuted`, `C68_parts`, `C68_division`, `C69_updates`, `C69_keeps`, `C69_defaults_fixed`, `C69_repeat`, `C69_interfaces`, `C69_nil_map`, `C69_rejected`, `C70_one_save`, `C70_finishes`, `C70_history`, `C70_second_save_refuted`, `C70_faults_refuted`, `C70_concurrent`, `C70_concurrent_refuted`, `C71_exact`, `C71_no_directory`, `C71_keys`, `C71_location`, `C71_link_works`, `C71_clean`, `C71_installed_url`, `C71_installed_path`, `C71_installed_url_refuted`, `C71_link_refuted`, `C71_hidden_refuted`, `C72_start`, `C73_two_adapters_refuted`, `C74_scanner`, `C74_reads`, `C74_lines`, `C74_splits`, `C74_unique`, `C74_handled`, `C75_never_stuck`, `C75_step`, `C75_bounded`, `C75_returns`, `C75_reachable`, `C75_takes_any`, `C76_messages`, `C76_dead_link`, `C76_dead_link_refuted`, `C76_fixed`, `C76_install`, `C76_app_files`, `C76_late_files`, `C76_assets`, `C76_not_found`, `C76_api`, `C76_redirect`, `C76_websockets`, `C77_enabled`, `C77_dies`, `C77_update_kills_refuted`, `C78_restart`, `C78_log_level`, `C78_other_file`, `C78_recover`, `C78_silent_defaults`, `C79_leak`, `C79_never_ends`, `C79_finite`, `C79_returns`, `C79_end_reached`, `C80_page`, `C80_press`, `C80_fixed`, `C80_unmodified`, `C80_uuid_shown`, `C80_uuid_stored`, `C80_dashes_refuted`, `C81_generate`, `C81_distinct`, `C81_all`, `C82_route`, `C82_shows`, `C82_not_in_table`, `C82_index_refuted`, `C83_source`, `C83_level`, `C83_option_case`, `C83_lines`, `C83_decoded`, `C83_none_refuted`, `C84_text`, `C84_lossless`, `C85_cause`, `C85_survives`, `C85_in_order`, `C85_files`, `C85_line_kills`, `C85_message_kills`, `C85_any_map`, `C85_map_kills`, `C85_exact`, `C85_exact_any`, `C85_alive`, `C86_years`, `paths_MapXml`, `C87_latin1_refuted`, `C88_statistics`, `C89_index`, `C89_no_markup`, `C90_uuid`, `C91_text`, `C91_body`, `C91_unique`, `C91_json`, `C92_settings`, `C92_refused`, `C92_answers`, `C93_form`, `C94_distinct`, `C94_runs`, `C95_runs`, `C95_answer`, `C95_refused`, `C96_command`, `C96_get`, `C96_invalid_sent_refuted`, `C97_options`, `C97_unique`, `C97_start`, `C97_numbers`, `C97_no_address`, `C97_switch_word_refuted`, `C98_names`, `C99_apps`, `C99_links`, `C99_kept`, `C99_same_place`, `C99_percent`, `C99_installed`, `C99_settings`, `C99_form`, `C100_loaded`, `C100_one_meaning`, `C100_shipped`, `C101_read`, `C101_twice`, `C102_saved`, `C102_restart`, `C102_kept`, `C102_unnamed`, `C102_torn`, `C102_torn_refuted`, `C102_silent_defaults`, `C102_names_refuted`, `C102_speeds_refuted`, `C102_renamed_refuted`, `C103_mqtt_order`, `C103_shipped`, `C104_usage`, `C104_help`, `C104_no_file`, `C104_no_config`, `C104_no_map`, `C104_no_broker`, `C104_runs`, `C104_starts`, `C104_death`, `C105_wire`, `C105_complete`, `C105_complete_ngt`, `C105_complete_file`, `C105_function`, `C106_exact`, `C106_manifest`, `C106_null_refuted`, `C107_finite`, `C107_returns`, `C107_ends`, `C107_lost_refuted`, `C107_hangs_refuted`, `C108_objects`, `C108_refused`, `C108_page`, `C108_empty`, `C108_method`, `C108_install`, `C108_request`, `C108_cell`, `C109_row`, `C109_order_refuted`, `C110_empty`, `C110_verbatim`, `C110_tables`, `C110_lookups_refuted`, `C111_equal_number`, `C111_same_text_refuted`, `C111_130820_never_maps_refuted`, `C111_absent_path_refuted`, `C112_stamp`, `C112_raw`, `C112_precision_refuted`, `C112_one_line_refuted`.
- `Classical_Prop.classic` (standard library), 5 theorems: `json_unique`, `C95_shown`, `C95_failed_shown_refuted`, `C108_inject_refuted`, `C109_table`.
- `ClassicalDedekindReals.sig_forall_dec`, `FunctionalExtensionality.functional_extensionality_dep` (standard library), 4 theorems: `C32_table`, `C110_entry3`, `C112_fixed`, `C112_close`.
- `ClassicalDedekindReals.sig_forall_dec`, `ClassicalDedekindReals.sig_not_dec`, `Classical_Prop.classic`, `FunctionalExtensionality.functional_extensionality_dep` (standard library), 47 theorems: `C32_scaled`, `C32_relative_error`, `C32_not_available_refuted`, `C33_four_bytes`, `C33_eight_bytes`, `C33_precision`, `C36_temperature`, `C36_pressure`, `C38_two_level`, `C41_meaning`, `C41_meaning_unique`, `C42_decoding`, `C42_decoding_unique`, `C86_written`, `C86_sent`, `C86_read`, `C86_no_markup`, `C86_exponent`, `C87_message`, `C87_read`, `C94_line`, `C94_message`, `C98_details`, `C98_read`, `C98_explain`, `C98_dialog`, `C103_provenance`, `C103_mqtt`, `C104_explain`, `C104_end_to_end`, `C107_line`, `C107_log`, `C107_complete`, `C110_definition`, `C110_page`, `C110_read`, `C110_answer`, `C86_shortest`, `C111_shortest`, `C111_reads`, `C111_faithful`, `C111_distinct`, `C111_octets`, `C111_stream`, `C111_equal_decimal_refuted`, `C112_value`, `C112_line`.
