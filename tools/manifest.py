#!/usr/bin/env python3
# writes /verif/MANIFEST.json from the table below
import json, os
T = {
 "C01": ("proved", ["parse_total", "parser_parse_total"], "termination and no panic of the rfc5424 machine on every input, from every machine state"),
 "C02": ("proved", ["parse_accepts_grammar", "parse_no_error_iff_grammar", "grammar_unambiguous"], ""),
 "C03": ("proved", ["parse_accepts_grammar", "grammar_unambiguous"], "the grammar relation carries the field values"),
 "C04": ("proved", ["parse_shape"], ""),
 "C05": ("proved", ["best_effort_conservative"], ""),
 "C06": ("proved", ["best_effort_minimal", "best_effort_priority"], ""),
 "C07": ("proved", ["best_effort_keeps_header", "best_effort_nothing_later", "best_effort_timestamp"], ""),
 "C08": ("proved", ["parse_reuse", "parse_independent"], ""),
 "C09": ("proved", ["parse_error_position", "parse_error_local"], ""),
 "C10": ("proved", ["accepted_priority", "every_priority_accepted"], ""),
 "C11": ("proved", ["default_message_opaque", "default_message_any_bytes"], ""),
 "C12": ("proved", ["compliant_message"], ""),
 "C13": ("proved", ["compliant_restricts", "compliant_same"], ""),
 "C14": ("proved", ["escape_then_parse"], ""),
 "C15": ("proved", ["duplicate_id_rejected"], ""),
 "C16": ("proved", ["shared5424", "shared5424_completes", "shared3164", "shared3164_completes", "machine5424_not_shareable_refuted", "machine3164_not_shareable_refuted"], "one statement of the goto program is one step of the interleaving"),
 "C17": ("proved", ["set_exact"], "effect (ThmBuilder.v) is the specification, in terms of Grammar5424"),
 "C18": ("proved", ["set_never_panics", "history_never_panics"], "on every message and with any values of the package variables"),
 "C19": ("proved", ["string_iff_valid", "valid_iff_history"], ""),
 "C20": ("proved", ["build_print_parse", "build_print_parse_iff", "build_print_accepted", "build_print_parse_refuted"], "the unrestricted round trip is false for non-ASCII values; the iff is exact"),
 "C21": ("proved", ["parse_print_parse", "parse_print_parse_iff"], ""),
 "C22": ("proved", ["escape_bytes_any", "firsts_unique", "escape_bytes_exact", "escape_bytes_chars", "escape_bytes_refuted"], "the naive claim is refuted"),
 "C23": ("proved", ["set_parameter_overwrites", "set_parameter_bad_value_erases", "set_parameter_discarded_refuted"], "the documented behaviour is refuted"),
 "C24": ("proved", ["builders_independent_sequential", "builders_independent_exclusive", "builders_independent_finished", "builders_no_panic_exclusive", "one_parameter_user_independent", "builders_race_panics_refuted", "builders_race_mixes_refuted"], "one call of set is one step of the interleaving"),
 "C25": ("proved", ["string_canonical", "string_sorted"], ""),
 "C26": ("proved", ["parse3164_total", "parser3164_total"], ""),
 "C27": ("proved", ["parse3164_accepts_grammar", "parse3164_grammar_accepted", "grammar3164_unambiguous", "parse3164_best_no_error_iff"], ""),
 "C28": ("proved", ["parse3164_silent_iff", "parse3164_no_error_no_message_refuted"], "the naive claim (no message implies an error) is refuted by witnesses; the proved theorem says exactly when it fails"),
 "C29": ("proved", ["header3164_fields", "parse3164_accepts_grammar"], ""),
 "C30": ("proved", ["tag_pid_text", "tag_text_only", "tag_pid_text_refuted"], "for a TEXT with a closing bracket the split is wrong; witnesses in tag_pid_text_refuted"),
 "C31": ("proved", ["year_option", "year_option_feb29_refuted"], "29 February of a common year becomes 1 March"),
 "C32": ("proved", ["timezone_option", "year_option", "rfc3339_as_written"], "WithTimezone for arbitrary locations, WithLocaleTimezone for fixed zones (for zones with transitions: C75)"),
 "C33": ("proved", ["rfc3339_conservative", "rfc3339_adds"], ""),
 "C34": ("proved", ["best3164_conservative", "best3164_message_iff", "best3164_timestamp"], ""),
 "C35": ("proved", ["parse3164_reuse", "parse3164_independent"], ""),
 "C36": ("proved", ["well_formed_stream", "frames_then_rest", "empty_stream"], "for every reader delivering the frames, in any chunking; opts_max < 2^63 - 20: for larger ints see C69"),
 "C37": ("proved", ["stream_chunking", "stream_depends_on_delivered"], "bufio.Reader is part of the model; a hundred empty reads in a row count as an error"),
 "C38": ("proved", ["too_long", "over_max_stops", "messages_within_max", "huge_length_refuted"], "lengths of 2^63 and more stop the parser with another error"),
 "C39": ("proved", ["strict_one_error", "strict_stops"], ""),
 "C40": ("proved", ["best_effort_survives", "frames_then_rest", "truncated_message"], ""),
 "C41": ("proved", ["silent_iff", "no_silent_loss", "silent_loss_nul_refuted", "silent_loss_error_refuted"], "false in general: a NUL byte or a read error after a frame ends the stream silently; silent_iff is exact"),
 "C42": ("proved", ["stream_total", "stream_results_bounded", "stream_outcome"], ""),
 "C43": ("proved", ["stream_reuse"], ""),
 "C44": ("proved", ["nt_messages", "nt_all_streams"], "for every behaviour of the external driver that the model leaves open"),
 "C45": ("proved", ["nt_unterminated", "nt_all_streams"], ""),
 "C46": ("proved", ["nt_reuse", "nt_second_stream", "nt_reuse_refuted"], "independence is refuted; the exact behaviour is proved"),
 "C47": ("proved", ["nt_never_sticks", "nt_total"], ""),
 "C48": ("proved", ["trailer_round_trip", "trailer_marshal_total", "trailer_value", "trailer_texts", "trailer_unknown"], "strings.ToUpper on ASCII; other letters cannot give L, F, N or U"),
 "C53": ("proved", ["nt_bad_start"], ""),
 "C52": ("proved", ["octet_options", "octet_options_order", "nt_options", "nt_options_ignored"], ""),
 "C49": ("proved", ["dec_to_int_ok", "dec_to_int_wrap"], ""),
 "C51": ("proved", ["compute_texts", "compute_texts_over", "texts_of_present", "levels_determine_priority", "texts5424", "texts3164", "texts_built", "facility_texts_refuted"], "the keyword of facility 13 differs from RFC 5427 and facilities 9 and 15 share a text: facility_texts_refuted"),
 "C54": ("proved", ["parse_fails", "fails_or_accepted", "fails_unique"], "the relation fails of Fail5424.v is the list"),
 "C55": ("proved", ["parse_error_viable", "parse_error_farthest", "timestamp_error_viable"], "the timestamp exception is real: timestamp_not_viable"),
 "C56": ("proved", ["parse3164_fails", "fails3164_or_accepted", "fails3164_unique"], "the relation fails of Fail3164.v is the list; some rejections carry no error"),
 "C57": ("proved", ["parse3164_error_viable", "parse3164_error_farthest", "timestamp3164_error_viable"], "the timestamp exception is real: timestamp3164_not_viable"),
 "C58": ("proved", ["stream_outcome_iff"], "the relation outcome of SpecOctet.v is the description; opts_max < 2^63 - 20: for larger ints see C69"),
 "C59": ("proved", ["parse_error_text", "parse3164_error_text", "column_read_back", "parse_error_text_tells", "parse3164_error_text_tells", "parse_time_error", "parse3164_time_error", "parse_error_printable", "parse3164_error_printable", "octet_error_text_tells", "octet_error_printable_refuted", "string_by_template"], "fmt.Errorf and Sprintf are modelled for the verbs %d and %s (Fmt.v)"),
 "C60": ("proved", ["new_iff", "api_parse", "api_has_best_effort", "api_apply", "api_err_last", "api_err_initial", "api_flags_order", "api_last_counts", "err5424_nil_iff_parsed", "err3164_nil_parsed_refuted"], "the documented meaning of a nil Err is refuted for RFC3164"),
 "C61": ("proved", ["current_year_fixed", "current_year_refuted"], ""),
 "C50": ("proved", ["remove_bytes_keep", "h_remove_bytes_fresh"], ""),
 "C62": ("proved", ["messages_are_values", "parse_only_adds"], ""),
 "C64": ("proved", ["parse3164_only_adds"], ""),
 "C65": ("proved", ["octet_transport", "octet_transport_any"], ""),
 "C66": ("proved", ["nt_transport", "nt_transport_any", "nt_transport_cut", "printed_one_message", "nt_forgery"], ""),
 "C67": ("proved", ["octet_prompt", "emissions_results"], ""),
 "C68": ("proved", ["nt_lag"], ""),
 "C69": ("proved", ["octet_huge_max"], "the addition n+20 of NewScanner is modelled with 64-bit wrap-around"),
 "C70": ("proved", ["bufio_same_results", "bufio_resume", "plain_resume_refuted"], "a *bufio.Reader smaller than that is wrapped like any other reader"),
 "C71": ("proved", ["parse5424_linear", "parse3164_linear", "set_linear", "nexec_linear"], "statements of the machines; copying and library calls inside one statement count as one"),
 "C72": ("proved", ["octet_results_are_values", "octet_messages_stay"], "memory model of bufio.Reader with its array, of the scanner and of the parser"),
 "C73": ("proved", ["nt_results_are_values", "nt_messages_stay"], "memory model of the candidate, the windows and lastChunk; the library outside /repo may place windows anywhere and reuse their arrays within a stream"),
 "C74": ("proved", ["rfc5424_not_rfc3164", "rfc3164_not_rfc5424", "octet_refuses_unframed", "octet_refuses_nt_stream", "nt_refuses_counted", "nt_refuses_counted_frames"], "languages of the two formats are disjoint (exact outcome of the cross parse); streams of one framing are refused by the parser of the other"),
 "C75": ("proved", ["locale_timezone", "releases_agree", "table_ok"], "time.Date and Location.lookup modelled with transition tables (Zone.v)"),
 "C76": ("proved", ["random_bytes_letters", "random_bytes_returns", "letters_fair", "right_pad_spec", "right_pad_panics", "max_message", "max_message_transport", "year_time_timestamp"], "MTesting.v models testing/testing.go"),
 "C77": ("proved", ["octet_read_ahead"], "record of the reads not made yet at each emission (MOctetLog.v)"),
 "C78": ("proved", ["octet_survives_panics", "octet_panic_prefix", "octet_points_total", "nt_listener_panics", "nt_reader_panics", "nt_survives_panics", "lparse_stream_results", "pt_stream_results"], "the models record the parser at every call of foreign code; forgetting the record gives MOctet / MNT"),
 "C79": ("proved", ["total_32_bits", "reuse_32_bits", "reads_32_bits", "same_with_32_bits", "well_formed_32_bits", "too_long_32_bits_refuted", "decimal_32_bits", "decimal_same_32_bits"], "the model of MOctet.v with 32-bit conversions (MOctet32.v)"),
 "C80": ("proved", ["builders_statement_level", "builders_statement_level_finish", "one_parameter_user_start", "builders_statement_race_panics_refuted", "builders_statement_race_mixes_refuted"], "C24 with every leaf statement, test and jump of set as a step of its own; the unrestricted claim is refuted"),
 "C81": ("proved", ["octet_later_options", "octet_later_has_best_effort", "octet_later_best_effort_refuted", "nt_later_before_streams", "nt_later_options", "nt_later_has_best_effort", "nt_later_best_effort_refuted"], "the naive reading (a later WithBestEffort works like an early one) is refuted for both framings"),
 "C82": ("proved", ["octet_reentrant_total", "octet_reentrant_stream", "octet_nested_clean", "octet_reentrant_refuted", "nt_reentrant_total", "nt_reentrant_once", "nt_reentrant_repeated", "nt_reentrant_refuted"], "the natural reading (a nested Parse does not disturb the outer one) is refuted for both framings"),
 "C83": ("proved", ["octet_listener_options", "octet_listener_options_refuted", "octet_listener_best_effort_refuted", "nt_listener_options", "nt_listener_trailer", "nt_listener_trailer_refuted"], "octet counting: for frames that fit the buffer allocated when the stream began; without that bound it is refuted"),
 "C84": ("proved", ["best3164_keeps_header", "best3164_keeps_tag", "best3164_only_read"], ""),
 "C85": ("proved", ["octet_work_results", "octet_work_linear", "octet_work_any", "stream_calls_made"], "the buffer allocated once for each stream and the work of the listener are not counted"),
 "C86": ("proved", ["nt_work_results", "nt_work_linear", "nt_calls_made"], "the growth of the candidate's array by append and the work of the listener are not counted"),
 "C87": ("proved", ["copy_results", "copies_bounded", "copies_plain", "copies_escaped", "copies_not_linear"], "the linear bound one might expect for un-escaping is refuted; allocations of append and of maps are not counted"),
 "C88": ("proved", ["copy3164_results", "copies3164_bounded", "copies3164_plain", "copies3164_brackets", "copies3164_not_linear"], "the linear bound one might expect for the content is refuted; what time.Parse and errors copy is not counted"),
 "C89": ("proved", ["string_results", "string_writes_bounded", "string_writes_plain", "string_writes_value", "string_writes_not_linear"], "the linear bound one might expect is refuted; sorting, Format of the timestamp and string(value[i]) are not counted"),
 "C90": ("proved", ["set_results", "set_copies_bounded", "set_copies_plain", "set_copies_escaped", "set_copies_not_linear"], "the linear bound one might expect for un-escaping is refuted; what append, the maps and time.Parse allocate is not counted"),
 "C91": ("proved", ["stream_calls_made", "stream_copies_any", "stream_copies_bounded"], "the per-stream linear bound for un-escaping is proved for parsers without best effort; with best effort the quadratic bound holds (a partial message may be a length field, and a length field has no maximum length)"),
 "C92": ("proved", ["nt_calls_made", "nt_copies_bounded"], "non-transparent framing has no maximum length, so un-escaping is bounded only by the square of the stream"),
 "C63": ("proved", ["copies_share_structured_data"], ""),
}
claims = [{"property": k, "status": s, "theorems": t, "note": n} for k, (s, t, n) in sorted(T.items())]
json.dump({"claims": claims}, open(os.path.join(os.path.dirname(__file__), "..", "MANIFEST.json"), "w"), indent=1)
