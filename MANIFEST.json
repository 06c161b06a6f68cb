{
 "claims": [
  {
   "property": "C01",
   "status": "proved",
   "theorems": [
    "parse_total",
    "parser_parse_total"
   ],
   "note": "termination and no panic of the rfc5424 machine on every input, from every machine state"
  },
  {
   "property": "C02",
   "status": "proved",
   "theorems": [
    "parse_accepts_grammar",
    "parse_no_error_iff_grammar",
    "grammar_unambiguous"
   ],
   "note": ""
  },
  {
   "property": "C03",
   "status": "proved",
   "theorems": [
    "parse_accepts_grammar",
    "grammar_unambiguous"
   ],
   "note": "the grammar relation carries the field values"
  },
  {
   "property": "C04",
   "status": "proved",
   "theorems": [
    "parse_shape"
   ],
   "note": ""
  },
  {
   "property": "C05",
   "status": "proved",
   "theorems": [
    "best_effort_conservative"
   ],
   "note": ""
  },
  {
   "property": "C06",
   "status": "proved",
   "theorems": [
    "best_effort_minimal",
    "best_effort_priority"
   ],
   "note": ""
  },
  {
   "property": "C07",
   "status": "proved",
   "theorems": [
    "best_effort_keeps_header",
    "best_effort_nothing_later",
    "best_effort_timestamp"
   ],
   "note": ""
  },
  {
   "property": "C08",
   "status": "proved",
   "theorems": [
    "parse_reuse",
    "parse_independent"
   ],
   "note": ""
  },
  {
   "property": "C09",
   "status": "proved",
   "theorems": [
    "parse_error_position",
    "parse_error_local"
   ],
   "note": ""
  },
  {
   "property": "C10",
   "status": "proved",
   "theorems": [
    "accepted_priority",
    "every_priority_accepted"
   ],
   "note": ""
  },
  {
   "property": "C11",
   "status": "proved",
   "theorems": [
    "default_message_opaque",
    "default_message_any_bytes"
   ],
   "note": ""
  },
  {
   "property": "C12",
   "status": "proved",
   "theorems": [
    "compliant_message"
   ],
   "note": ""
  },
  {
   "property": "C13",
   "status": "proved",
   "theorems": [
    "compliant_restricts",
    "compliant_same"
   ],
   "note": ""
  },
  {
   "property": "C14",
   "status": "proved",
   "theorems": [
    "escape_then_parse"
   ],
   "note": ""
  },
  {
   "property": "C15",
   "status": "proved",
   "theorems": [
    "duplicate_id_rejected"
   ],
   "note": ""
  },
  {
   "property": "C16",
   "status": "proved",
   "theorems": [
    "shared5424",
    "shared5424_completes",
    "shared3164",
    "shared3164_completes",
    "machine5424_not_shareable_refuted",
    "machine3164_not_shareable_refuted"
   ],
   "note": "one statement of the goto program is one step of the interleaving"
  },
  {
   "property": "C17",
   "status": "proved",
   "theorems": [
    "set_exact"
   ],
   "note": "effect (ThmBuilder.v) is the specification, in terms of Grammar5424"
  },
  {
   "property": "C18",
   "status": "proved",
   "theorems": [
    "set_never_panics",
    "history_never_panics"
   ],
   "note": "on every message and with any values of the package variables"
  },
  {
   "property": "C19",
   "status": "proved",
   "theorems": [
    "string_iff_valid",
    "valid_iff_history"
   ],
   "note": ""
  },
  {
   "property": "C20",
   "status": "proved",
   "theorems": [
    "build_print_parse",
    "build_print_parse_iff",
    "build_print_accepted",
    "build_print_parse_refuted"
   ],
   "note": "the unrestricted round trip is false for non-ASCII values; the iff is exact"
  },
  {
   "property": "C21",
   "status": "proved",
   "theorems": [
    "parse_print_parse",
    "parse_print_parse_iff"
   ],
   "note": ""
  },
  {
   "property": "C22",
   "status": "proved",
   "theorems": [
    "escape_bytes_any",
    "firsts_unique",
    "escape_bytes_exact",
    "escape_bytes_chars",
    "escape_bytes_refuted"
   ],
   "note": "the naive claim is refuted"
  },
  {
   "property": "C23",
   "status": "proved",
   "theorems": [
    "set_parameter_overwrites",
    "set_parameter_bad_value_erases",
    "set_parameter_discarded_refuted"
   ],
   "note": "the documented behaviour is refuted"
  },
  {
   "property": "C24",
   "status": "proved",
   "theorems": [
    "builders_independent_sequential",
    "builders_independent_exclusive",
    "builders_independent_finished",
    "builders_no_panic_exclusive",
    "one_parameter_user_independent",
    "builders_race_panics_refuted",
    "builders_race_mixes_refuted"
   ],
   "note": "one call of set is one step of the interleaving"
  },
  {
   "property": "C25",
   "status": "proved",
   "theorems": [
    "string_canonical",
    "string_sorted"
   ],
   "note": ""
  },
  {
   "property": "C26",
   "status": "proved",
   "theorems": [
    "parse3164_total",
    "parser3164_total"
   ],
   "note": ""
  },
  {
   "property": "C27",
   "status": "proved",
   "theorems": [
    "parse3164_accepts_grammar",
    "parse3164_grammar_accepted",
    "grammar3164_unambiguous",
    "parse3164_best_no_error_iff"
   ],
   "note": ""
  },
  {
   "property": "C28",
   "status": "proved",
   "theorems": [
    "parse3164_silent_iff",
    "parse3164_no_error_no_message_refuted"
   ],
   "note": "the naive claim (no message implies an error) is refuted by witnesses; the proved theorem says exactly when it fails"
  },
  {
   "property": "C29",
   "status": "proved",
   "theorems": [
    "header3164_fields",
    "parse3164_accepts_grammar"
   ],
   "note": ""
  },
  {
   "property": "C30",
   "status": "proved",
   "theorems": [
    "tag_pid_text",
    "tag_text_only",
    "tag_pid_text_refuted"
   ],
   "note": "for a TEXT with a closing bracket the split is wrong; witnesses in tag_pid_text_refuted"
  },
  {
   "property": "C31",
   "status": "proved",
   "theorems": [
    "year_option",
    "year_option_feb29_refuted"
   ],
   "note": "29 February of a common year becomes 1 March"
  },
  {
   "property": "C32",
   "status": "proved",
   "theorems": [
    "timezone_option",
    "year_option",
    "rfc3339_as_written"
   ],
   "note": "WithTimezone for arbitrary locations, WithLocaleTimezone for fixed zones (for zones with transitions: C75)"
  },
  {
   "property": "C33",
   "status": "proved",
   "theorems": [
    "rfc3339_conservative",
    "rfc3339_adds"
   ],
   "note": ""
  },
  {
   "property": "C34",
   "status": "proved",
   "theorems": [
    "best3164_conservative",
    "best3164_message_iff",
    "best3164_timestamp"
   ],
   "note": ""
  },
  {
   "property": "C35",
   "status": "proved",
   "theorems": [
    "parse3164_reuse",
    "parse3164_independent"
   ],
   "note": ""
  },
  {
   "property": "C36",
   "status": "proved",
   "theorems": [
    "well_formed_stream",
    "frames_then_rest",
    "empty_stream"
   ],
   "note": "for every reader delivering the frames, in any chunking; opts_max < 2^63 - 20: for larger ints see C69"
  },
  {
   "property": "C37",
   "status": "proved",
   "theorems": [
    "stream_chunking",
    "stream_depends_on_delivered"
   ],
   "note": "bufio.Reader is part of the model; a hundred empty reads in a row count as an error"
  },
  {
   "property": "C38",
   "status": "proved",
   "theorems": [
    "too_long",
    "over_max_stops",
    "messages_within_max",
    "huge_length_refuted"
   ],
   "note": "lengths of 2^63 and more stop the parser with another error"
  },
  {
   "property": "C39",
   "status": "proved",
   "theorems": [
    "strict_one_error",
    "strict_stops"
   ],
   "note": ""
  },
  {
   "property": "C40",
   "status": "proved",
   "theorems": [
    "best_effort_survives",
    "frames_then_rest",
    "truncated_message"
   ],
   "note": ""
  },
  {
   "property": "C41",
   "status": "proved",
   "theorems": [
    "silent_iff",
    "no_silent_loss",
    "silent_loss_nul_refuted",
    "silent_loss_error_refuted"
   ],
   "note": "false in general: a NUL byte or a read error after a frame ends the stream silently; silent_iff is exact"
  },
  {
   "property": "C42",
   "status": "proved",
   "theorems": [
    "stream_total",
    "stream_results_bounded",
    "stream_outcome"
   ],
   "note": ""
  },
  {
   "property": "C43",
   "status": "proved",
   "theorems": [
    "stream_reuse"
   ],
   "note": ""
  },
  {
   "property": "C44",
   "status": "proved",
   "theorems": [
    "nt_messages",
    "nt_all_streams"
   ],
   "note": "for every behaviour of the external driver that the model leaves open"
  },
  {
   "property": "C45",
   "status": "proved",
   "theorems": [
    "nt_unterminated",
    "nt_all_streams"
   ],
   "note": ""
  },
  {
   "property": "C46",
   "status": "proved",
   "theorems": [
    "nt_reuse",
    "nt_second_stream",
    "nt_reuse_refuted"
   ],
   "note": "independence is refuted; the exact behaviour is proved"
  },
  {
   "property": "C47",
   "status": "proved",
   "theorems": [
    "nt_never_sticks",
    "nt_total"
   ],
   "note": ""
  },
  {
   "property": "C48",
   "status": "proved",
   "theorems": [
    "trailer_round_trip",
    "trailer_marshal_total",
    "trailer_value",
    "trailer_texts",
    "trailer_unknown"
   ],
   "note": "strings.ToUpper on ASCII; other letters cannot give L, F, N or U"
  },
  {
   "property": "C49",
   "status": "proved",
   "theorems": [
    "dec_to_int_ok",
    "dec_to_int_wrap"
   ],
   "note": ""
  },
  {
   "property": "C50",
   "status": "proved",
   "theorems": [
    "remove_bytes_keep",
    "h_remove_bytes_fresh"
   ],
   "note": ""
  },
  {
   "property": "C51",
   "status": "proved",
   "theorems": [
    "compute_texts",
    "compute_texts_over",
    "texts_of_present",
    "levels_determine_priority",
    "texts5424",
    "texts3164",
    "texts_built",
    "facility_texts_refuted"
   ],
   "note": "the keyword of facility 13 differs from RFC 5427 and facilities 9 and 15 share a text: facility_texts_refuted"
  },
  {
   "property": "C52",
   "status": "proved",
   "theorems": [
    "octet_options",
    "octet_options_order",
    "nt_options",
    "nt_options_ignored"
   ],
   "note": ""
  },
  {
   "property": "C53",
   "status": "proved",
   "theorems": [
    "nt_bad_start"
   ],
   "note": ""
  },
  {
   "property": "C54",
   "status": "proved",
   "theorems": [
    "parse_fails",
    "fails_or_accepted",
    "fails_unique"
   ],
   "note": "the relation fails of Fail5424.v is the list"
  },
  {
   "property": "C55",
   "status": "proved",
   "theorems": [
    "parse_error_viable",
    "parse_error_farthest",
    "timestamp_error_viable"
   ],
   "note": "the timestamp exception is real: timestamp_not_viable"
  },
  {
   "property": "C56",
   "status": "proved",
   "theorems": [
    "parse3164_fails",
    "fails3164_or_accepted",
    "fails3164_unique"
   ],
   "note": "the relation fails of Fail3164.v is the list; some rejections carry no error"
  },
  {
   "property": "C57",
   "status": "proved",
   "theorems": [
    "parse3164_error_viable",
    "parse3164_error_farthest",
    "timestamp3164_error_viable"
   ],
   "note": "the timestamp exception is real: timestamp3164_not_viable"
  },
  {
   "property": "C58",
   "status": "proved",
   "theorems": [
    "stream_outcome_iff"
   ],
   "note": "the relation outcome of SpecOctet.v is the description; opts_max < 2^63 - 20: for larger ints see C69"
  },
  {
   "property": "C59",
   "status": "proved",
   "theorems": [
    "parse_error_text",
    "parse3164_error_text",
    "column_read_back",
    "parse_error_text_tells",
    "parse3164_error_text_tells",
    "parse_time_error",
    "parse3164_time_error",
    "parse_error_printable",
    "parse3164_error_printable",
    "octet_error_text_tells",
    "octet_error_printable_refuted",
    "string_by_template"
   ],
   "note": "fmt.Errorf and Sprintf are modelled for the verbs %d and %s (Fmt.v)"
  },
  {
   "property": "C60",
   "status": "proved",
   "theorems": [
    "new_iff",
    "api_parse",
    "api_has_best_effort",
    "api_apply",
    "api_err_last",
    "api_err_initial",
    "api_flags_order",
    "api_last_counts",
    "err5424_nil_iff_parsed",
    "err3164_nil_parsed_refuted"
   ],
   "note": "the documented meaning of a nil Err is refuted for RFC3164"
  },
  {
   "property": "C61",
   "status": "proved",
   "theorems": [
    "current_year_fixed",
    "current_year_refuted"
   ],
   "note": ""
  },
  {
   "property": "C62",
   "status": "proved",
   "theorems": [
    "messages_are_values",
    "parse_only_adds"
   ],
   "note": ""
  },
  {
   "property": "C63",
   "status": "proved",
   "theorems": [
    "copies_share_structured_data"
   ],
   "note": ""
  },
  {
   "property": "C64",
   "status": "proved",
   "theorems": [
    "parse3164_only_adds"
   ],
   "note": ""
  },
  {
   "property": "C65",
   "status": "proved",
   "theorems": [
    "octet_transport",
    "octet_transport_any"
   ],
   "note": ""
  },
  {
   "property": "C66",
   "status": "proved",
   "theorems": [
    "nt_transport",
    "nt_transport_any",
    "nt_transport_cut",
    "printed_one_message",
    "nt_forgery"
   ],
   "note": ""
  },
  {
   "property": "C67",
   "status": "proved",
   "theorems": [
    "octet_prompt",
    "emissions_results"
   ],
   "note": ""
  },
  {
   "property": "C68",
   "status": "proved",
   "theorems": [
    "nt_lag"
   ],
   "note": ""
  },
  {
   "property": "C69",
   "status": "proved",
   "theorems": [
    "octet_huge_max"
   ],
   "note": "the addition n+20 of NewScanner is modelled with 64-bit wrap-around"
  },
  {
   "property": "C70",
   "status": "proved",
   "theorems": [
    "bufio_same_results",
    "bufio_resume",
    "plain_resume_refuted"
   ],
   "note": "a *bufio.Reader smaller than that is wrapped like any other reader"
  },
  {
   "property": "C71",
   "status": "proved",
   "theorems": [
    "parse5424_linear",
    "parse3164_linear",
    "set_linear",
    "nexec_linear"
   ],
   "note": "statements of the machines; copying and library calls inside one statement count as one"
  },
  {
   "property": "C72",
   "status": "proved",
   "theorems": [
    "octet_results_are_values",
    "octet_messages_stay"
   ],
   "note": "memory model of bufio.Reader with its array, of the scanner and of the parser"
  },
  {
   "property": "C73",
   "status": "proved",
   "theorems": [
    "nt_results_are_values",
    "nt_messages_stay"
   ],
   "note": "memory model of the candidate, the windows and lastChunk; the library outside /repo may place windows anywhere and reuse their arrays within a stream"
  },
  {
   "property": "C74",
   "status": "proved",
   "theorems": [
    "rfc5424_not_rfc3164",
    "rfc3164_not_rfc5424",
    "octet_refuses_unframed",
    "octet_refuses_nt_stream",
    "nt_refuses_counted",
    "nt_refuses_counted_frames"
   ],
   "note": "languages of the two formats are disjoint (exact outcome of the cross parse); streams of one framing are refused by the parser of the other"
  },
  {
   "property": "C75",
   "status": "proved",
   "theorems": [
    "locale_timezone",
    "releases_agree",
    "table_ok"
   ],
   "note": "time.Date and Location.lookup modelled with transition tables (Zone.v)"
  },
  {
   "property": "C76",
   "status": "proved",
   "theorems": [
    "random_bytes_letters",
    "random_bytes_returns",
    "letters_fair",
    "right_pad_spec",
    "right_pad_panics",
    "max_message",
    "max_message_transport",
    "year_time_timestamp"
   ],
   "note": "MTesting.v models testing/testing.go"
  },
  {
   "property": "C77",
   "status": "proved",
   "theorems": [
    "octet_read_ahead"
   ],
   "note": "record of the reads not made yet at each emission (MOctetLog.v)"
  },
  {
   "property": "C78",
   "status": "proved",
   "theorems": [
    "octet_survives_panics",
    "octet_panic_prefix",
    "octet_points_total",
    "nt_listener_panics",
    "nt_reader_panics",
    "nt_survives_panics",
    "lparse_stream_results",
    "pt_stream_results"
   ],
   "note": "the models record the parser at every call of foreign code; forgetting the record gives MOctet / MNT"
  },
  {
   "property": "C79",
   "status": "proved",
   "theorems": [
    "total_32_bits",
    "reuse_32_bits",
    "reads_32_bits",
    "same_with_32_bits",
    "well_formed_32_bits",
    "too_long_32_bits_refuted",
    "decimal_32_bits",
    "decimal_same_32_bits"
   ],
   "note": "the model of MOctet.v with 32-bit conversions (MOctet32.v)"
  },
  {
   "property": "C80",
   "status": "proved",
   "theorems": [
    "builders_statement_level",
    "builders_statement_level_finish",
    "one_parameter_user_start",
    "builders_statement_race_panics_refuted",
    "builders_statement_race_mixes_refuted"
   ],
   "note": "C24 with every leaf statement, test and jump of set as a step of its own; the unrestricted claim is refuted"
  },
  {
   "property": "C81",
   "status": "proved",
   "theorems": [
    "octet_later_options",
    "octet_later_has_best_effort",
    "octet_later_best_effort_refuted",
    "nt_later_before_streams",
    "nt_later_options",
    "nt_later_has_best_effort",
    "nt_later_best_effort_refuted"
   ],
   "note": "the naive reading (a later WithBestEffort works like an early one) is refuted for both framings"
  },
  {
   "property": "C82",
   "status": "proved",
   "theorems": [
    "octet_reentrant_total",
    "octet_reentrant_stream",
    "octet_nested_clean",
    "octet_reentrant_refuted",
    "nt_reentrant_total",
    "nt_reentrant_once",
    "nt_reentrant_repeated",
    "nt_reentrant_refuted"
   ],
   "note": "the natural reading (a nested Parse does not disturb the outer one) is refuted for both framings"
  },
  {
   "property": "C83",
   "status": "proved",
   "theorems": [
    "octet_listener_options",
    "octet_listener_options_refuted",
    "octet_listener_best_effort_refuted",
    "nt_listener_options",
    "nt_listener_trailer",
    "nt_listener_trailer_refuted"
   ],
   "note": "octet counting: for frames that fit the buffer allocated when the stream began; without that bound it is refuted"
  },
  {
   "property": "C84",
   "status": "proved",
   "theorems": [
    "best3164_keeps_header",
    "best3164_keeps_tag",
    "best3164_only_read"
   ],
   "note": ""
  },
  {
   "property": "C85",
   "status": "proved",
   "theorems": [
    "octet_work_results",
    "octet_work_linear",
    "octet_work_any",
    "stream_calls_made"
   ],
   "note": "the buffer allocated once for each stream and the work of the listener are not counted"
  },
  {
   "property": "C86",
   "status": "proved",
   "theorems": [
    "nt_work_results",
    "nt_work_linear",
    "nt_calls_made"
   ],
   "note": "the growth of the candidate's array by append and the work of the listener are not counted"
  },
  {
   "property": "C87",
   "status": "proved",
   "theorems": [
    "copy_results",
    "copies_bounded",
    "copies_plain",
    "copies_escaped",
    "copies_not_linear"
   ],
   "note": "the linear bound one might expect for un-escaping is refuted; allocations of append and of maps are not counted"
  },
  {
   "property": "C88",
   "status": "proved",
   "theorems": [
    "copy3164_results",
    "copies3164_bounded",
    "copies3164_plain",
    "copies3164_brackets",
    "copies3164_not_linear"
   ],
   "note": "the linear bound one might expect for the content is refuted; what time.Parse and errors copy is not counted"
  },
  {
   "property": "C89",
   "status": "proved",
   "theorems": [
    "string_results",
    "string_writes_bounded",
    "string_writes_plain",
    "string_writes_value",
    "string_writes_not_linear"
   ],
   "note": "the linear bound one might expect is refuted; sorting, Format of the timestamp and string(value[i]) are not counted"
  },
  {
   "property": "C90",
   "status": "proved",
   "theorems": [
    "set_results",
    "set_copies_bounded",
    "set_copies_plain",
    "set_copies_escaped",
    "set_copies_not_linear"
   ],
   "note": "the linear bound one might expect for un-escaping is refuted; what append, the maps and time.Parse allocate is not counted"
  },
  {
   "property": "C91",
   "status": "proved",
   "theorems": [
    "stream_calls_made",
    "stream_copies_any",
    "stream_copies_bounded"
   ],
   "note": "the per-stream linear bound for un-escaping is proved for parsers without best effort; with best effort the quadratic bound holds (a partial message may be a length field, and a length field has no maximum length)"
  },
  {
   "property": "C92",
   "status": "proved",
   "theorems": [
    "nt_calls_made",
    "nt_copies_bounded"
   ],
   "note": "non-transparent framing has no maximum length, so un-escaping is bounded only by the square of the stream"
  }
 ]
}