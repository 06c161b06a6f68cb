{"id": "C01", "title": "RFC5424 Parse is total", "statement": "Calling Parse on an RFC5424 machine returns for every byte slice: it never panics (no out-of-range slice, no write to a nil map) and never loops forever, whatever the options and whatever the machine parsed before.", "quantifier": "every input byte sequence of any length, every option combination (best effort, compliant msg), every earlier history of Parse calls on the same machine", "why_tests_cant": "The input space and machine histories are unbounded; fuzzing only samples it and cannot rule out one panicking input.", "anchors": ["rfc5424/machine.go: (*machine).Parse", "rfc5424/machine.go.rl: grammar and actions", "common/functions.go: RemoveBytes"]}
{"id": "C02", "title": "RFC5424 acceptance is exactly the grammar", "statement": "Parse reports no error if and only if the input is '<' PRIVAL '>' VERSION SP TIMESTAMP SP HOSTNAME SP APPNAME SP PROCID SP MSGID SP SD [SP MSG], with every part as documented (PRIVAL 0..191 without leading zeros, VERSION 1..999, RFC3339 timestamp with up to 6 fraction digits and a day that exists in its month or '-', printable words of at most 255/48/128/32 bytes, SD '-' or elements with pairwise distinct ids, param values UTF-8 with escaped quote, backslash, bracket).", "quantifier": "every input byte sequence, both strict and best-effort mode, default message mode", "why_tests_cant": "Both directions quantify over all strings; tests only show chosen accepted and rejected strings.", "anchors": ["rfc5424/machine.go: (*machine).Parse", "rfc5424/machine.go.rl: grammar and actions", "common/common.rl"]}
{"id": "C03", "title": "RFC5424 fields of an accepted message", "statement": "When Parse reports no error, the returned message's priority, facility, severity, version, timestamp, hostname, appname, procid, msgid, structured data and message are exactly the values the grammar parts of the input denote: '-' and absent parts are nil, escaped characters in parameter values are unescaped, a repeated parameter name keeps its last value, everything else is byte-for-byte the input text.", "quantifier": "every accepted input, every option combination", "why_tests_cant": "Requires relating output to input for all strings; tests compare finitely many pairs.", "anchors": ["rfc5424/machine.go: (*machine).Parse", "rfc5424/machine.go.rl: grammar and actions", "rfc5424/syslog_message.go: export"]}
{"id": "C04", "title": "RFC5424 result shape", "statement": "Parse never returns both a nil message and a nil error. A nil error comes with a message that is Valid(); without best effort a non-nil error comes with a nil message.", "quantifier": "every input, option combination and machine history", "why_tests_cant": "Needs every control path of a 600-state machine to set an error before leaving through a non-final state.", "anchors": ["rfc5424/machine.go: (*machine).Parse", "rfc5424/parser.go: (*parser).Parse"]}
{"id": "C05", "title": "RFC5424 best effort is conservative", "statement": "Enabling best effort changes neither which inputs are accepted nor the message returned for them nor the error reported for rejected ones: it only may add a partial message next to the error.", "quantifier": "every pair of a strict and a best-effort machine and every input", "why_tests_cant": "Relational property over all inputs.", "anchors": ["rfc5424/machine.go: (*machine).Parse", "rfc5424/parser.go: (*parser).Parse"]}
{"id": "C06", "title": "RFC5424 best effort returns a message iff minimally valid", "statement": "In best-effort mode a rejected input yields a non-nil message exactly when the input starts with a well-formed PRI followed by at least one version digit 1-9, and that message is Valid().", "quantifier": "every rejected input", "why_tests_cant": "Characterises all rejected strings.", "anchors": ["rfc5424/machine.go: (*machine).Parse", "rfc5424/syslog_message.go: minimal, export"]}
{"id": "C07", "title": "RFC5424 best effort keeps completed header fields", "statement": "When a rejected input has complete header fields (each followed by its separator), the partial message of a best-effort parse holds exactly the values of those fields, and, when the next header field is not complete, nil for it and for all later fields, the structured data and the message; only an incomplete timestamp may be set already (when its text is complete but no space follows).", "quantifier": "every rejected input in best-effort mode", "why_tests_cant": "Quantifies over every truncation or corruption point of every message.", "anchors": ["rfc5424/machine.go: (*machine).Parse", "rfc5424/machine.go.rl: grammar and actions"]}
{"id": "C08", "title": "RFC5424 machine reuse", "statement": "The result of Parse depends only on the input and the options: parsing any sequence of inputs on one machine gives the same results as parsing each on a fresh machine.", "quantifier": "every sequence of inputs, every option combination", "why_tests_cant": "Histories are unbounded; parser fields such as the current element id and parameter name survive between calls.", "anchors": ["rfc5424/machine.go: (*machine).Parse"]}
{"id": "C09", "title": "RFC5424 error position and locality", "statement": "The reported error column is at most the input length, and the reported error (kind and column) depends only on the bytes up to and including that column: any other input sharing those bytes gets the same error.", "quantifier": "every rejected input and every other input agreeing with it up to the error column", "why_tests_cant": "Two-run property over all inputs.", "anchors": ["rfc5424/machine.go: (*machine).Parse", "rfc5424/machine.go.rl: grammar and actions"]}
{"id": "C10", "title": "PRI semantics", "statement": "For an accepted message the priority is the decimal number between the angle brackets, lies in 0..191, has no redundant leading zero, facility = priority / 8 and severity = priority mod 8; every number 0..191 is accepted.", "quantifier": "every accepted input; every number 0..191", "why_tests_cant": "Links decoding arithmetic (uint8 conversion) with the automaton for all inputs.", "anchors": ["rfc5424/machine.go: (*machine).Parse", "syslog.go: (*Base).ComputeFromPriority", "common/functions.go: UnsafeUTF8DecimalCodePointsToInt"]}
{"id": "C11", "title": "Default-mode message is opaque", "statement": "In the default mode any byte sequence following the structured data and a space is accepted as the message and returned unchanged (nil when empty), including control bytes, NUL, newlines and invalid UTF-8.", "quantifier": "every byte sequence as message, every valid header", "why_tests_cant": "All byte strings.", "anchors": ["rfc5424/machine.go.rl: grammar and actions (msg_any)"]}
{"id": "C12", "title": "Compliant-mode message", "statement": "With WithCompliantMsg a message is accepted iff it does not start with a BOM or what follows the BOM is well-formed UTF-8 (RFC 3629), and an accepted message is returned unchanged.", "quantifier": "every byte sequence as message", "why_tests_cant": "UTF-8 well-formedness over all byte strings.", "anchors": ["rfc5424/machine.go.rl: grammar and actions (msg_compliant)", "rfc5424/options.go: WithCompliantMsg"]}
{"id": "C13", "title": "Compliant mode is a restriction", "statement": "Every input accepted in compliant mode is accepted in default mode with the same message; inputs whose message does not start with the BOM are treated identically by both modes.", "quantifier": "every input", "why_tests_cant": "Relational over all inputs.", "anchors": ["rfc5424/machine.go.rl: grammar and actions"]}
{"id": "C14", "title": "Structured data unescaping is the inverse of escaping", "statement": "For every parameter value that is valid UTF-8, writing it with each quote, backslash and closing bracket preceded by a backslash makes Parse return exactly the original value.", "quantifier": "every UTF-8 value, every element id and parameter name", "why_tests_cant": "Round trip over all strings.", "anchors": ["rfc5424/machine.go.rl: grammar and actions", "common/functions.go: RemoveBytes"]}
{"id": "C15", "title": "Duplicate SD-IDs are rejected", "statement": "An input whose structured data repeats an element id is always rejected, with the duplicate-id error at the column just after the repeated id.", "quantifier": "every input with a repeated element id", "why_tests_cant": "All element lists.", "anchors": ["rfc5424/machine.go.rl: grammar and actions (set_id)"]}
{"id": "C16", "title": "Concurrent use of a shared parser", "statement": "When several goroutines call Parse on one parser value made by NewParser (RFC5424 or RFC3164), then under every interleaving each call returns the result a private parser with the same options would return, no call panics, and from every reachable point every goroutine can still complete all its calls. A value made by NewMachine (no mutex) has no such guarantee: some schedules make a call return the result for another goroutine's input.", "quantifier": "every number of goroutines, every list of inputs per goroutine, every schedule", "why_tests_cant": "Schedules are unbounded; race tests only sample them.", "anchors": ["rfc5424/parser.go: (*parser).Parse (Lock/Unlock)", "rfc5424/machine.go: (*machine).Parse", "rfc3164/parser.go: (*parser).Parse", "rfc3164/machine.go: (*machine).Parse"]}
{"id": "C17", "title": "Builder setters accept exactly the grammar", "statement": "Each builder setter changes the message exactly when its argument is in the grammar of that field: SetPriority 0..191 (stores priority, facility, severity), SetVersion 1..999, SetTimestamp a timestamp of the grammar, hostname/appname/procid/msgid a word within the length limit other than '-', SetMessage non-empty, SetElementID an SD-NAME not already present (adds an empty element). SetParameter with a grammatical id and name stores the unescaped value when it is in the grammar and the empty value when it is not; with a grammatical id and an ungrammatical name it only adds the element; with an ungrammatical id it does nothing. Nothing else changes.", "quantifier": "every message state, every argument string", "why_tests_cant": "All strings of any length.", "anchors": ["rfc5424/builder.go: (*SyslogMessage).set and setters", "rfc5424/builder.go.rl"]}
{"id": "C18", "title": "Builder setters never panic", "statement": "No sequence of builder calls on messages created with the builder panics, used from one goroutine.", "quantifier": "every finite sequence of builder calls with arbitrary arguments", "why_tests_cant": "Unbounded histories with nil maps.", "anchors": ["rfc5424/builder.go: (*SyslogMessage).set and setters"]}
{"id": "C19", "title": "Builder Valid and String agree", "statement": "String() returns an error iff the message is not Valid(), and Valid() holds iff a priority in 0..191 and a version in 1..999 have been set at some point by the builder calls.", "quantifier": "every finite sequence of builder calls", "why_tests_cant": "Unbounded histories.", "anchors": ["rfc5424/builder.go: (*SyslogMessage).set and setters", "rfc5424/builder.go: String", "rfc5424/syslog_message.go: Valid"]}
{"id": "C20", "title": "Build-print-parse round trip", "statement": "For every message made with builder calls (priority and version set), String() is accepted by the parser, and parsing it gives back exactly that message iff every character of every parameter value is ASCII or U+00C3 (so always for ASCII values); in every other case all other fields, the element ids and the parameter names are still read back unchanged. The unrestricted round trip is false (C22).", "quantifier": "every finite sequence of builder calls, every iteration order of the maps", "why_tests_cant": "Round trip over all messages.", "anchors": ["rfc5424/builder.go: (*SyslogMessage).set and setters", "rfc5424/builder.go: String", "common/functions.go: EscapeBytes", "rfc5424/machine.go: (*machine).Parse"]}
{"id": "C21", "title": "Parse-print-parse is stable", "statement": "For every accepted input, printing the parsed message with String() and parsing again gives the same message iff every character of every parameter value is ASCII or U+00C3 (so always for ASCII values).", "quantifier": "every accepted input, every iteration order of the maps", "why_tests_cant": "All inputs.", "anchors": ["rfc5424/machine.go: (*machine).Parse", "rfc5424/builder.go: String"]}
{"id": "C22", "title": "EscapeBytes on non-ASCII values", "statement": "For every byte string, EscapeBytes (hence String()) prints, for each UTF-8 encoded character and each stray byte in turn, the character whose number is the first byte of the encoding (or the stray byte itself), with a backslash before it if that is a quote, a backslash or a closing bracket, and nothing else. Hence, for valid UTF-8, it only adds those backslashes iff all characters are ASCII or U+00C3. (The claim users would expect, that every other character is left unchanged, is refuted: U+00E9 is printed as U+00C3.)", "quantifier": "every byte string as parameter value", "why_tests_cant": "All strings; ASCII-only tests pass.", "anchors": ["common/functions.go: EscapeBytes", "rfc5424/builder.go: String"]}
{"id": "C23", "title": "SetParameter on an existing name", "statement": "SetParameter on a name that already exists replaces the value (and erases it when the new value is ungrammatical), leaving every other parameter alone; the documented 'the operation is discarded' is refuted.", "quantifier": "every message, element, name and value", "why_tests_cant": "History dependent.", "anchors": ["rfc5424/builder.go: SetParameter"]}
{"id": "C24", "title": "Builders are independent across goroutines", "statement": "Goroutines building different messages do not influence each other and do not panic as long as no two of them are inside SetParameter at the same time (any other calls may overlap in any way; in particular when at most one goroutine uses SetParameter, or when calls do not overlap). Without that exclusion the claim is refuted: two overlapping SetParameter calls on different messages can panic or store a value under the name given by the other goroutine.", "quantifier": "every schedule of builder calls of any number of goroutines on distinct messages", "why_tests_cant": "Schedules; package-level variables shared.", "anchors": ["rfc5424/builder.go: currentid, currentparamname, SetParameter"]}
{"id": "C25", "title": "String output is canonical", "statement": "String() depends only on the message content, not on the order in which elements and parameters were set: any two builder histories ending in equal contents print equally, elements and parameters in increasing byte order.", "quantifier": "every pair of builder histories", "why_tests_cant": "Go map iteration order is random; tests sample it.", "anchors": ["rfc5424/builder.go: String"]}
{"id": "C26", "title": "RFC3164 Parse is total", "statement": "Calling Parse on an RFC3164 machine returns for every byte slice without panic or infinite loop.", "quantifier": "every input, option combination and history", "why_tests_cant": "Unbounded inputs.", "anchors": ["rfc3164/machine.go: (*machine).Parse"]}
{"id": "C27", "title": "RFC3164 acceptance is exactly the grammar", "statement": "Parse succeeds iff the input is PRI, Stamp timestamp (or, with WithRFC3339, an RFC3339 one), space, hostname of 1..255 printable characters, space, and a nonempty message part as the implemented grammar describes.", "quantifier": "every input, with and without WithRFC3339", "why_tests_cant": "All strings.", "anchors": ["rfc3164/machine.go: (*machine).Parse", "rfc3164/machine.go.rl: grammar and actions"]}
{"id": "C28", "title": "RFC3164: when neither a message nor an error comes back", "statement": "A strict RFC3164 Parse returns (nil, nil) exactly for: a PRI and a text shaped like a timestamp not followed by a space; with WithRFC3339, a PRI and a text starting with a digit that differs from every RFC3339 timestamp in its first 19 characters; a good header followed by a nonempty message part that does not start with a control character but is not in the message grammar (a control character in the text). For every other rejected input there is an error. (The naive claim 'no message means an error' is refuted.)", "quantifier": "every input, every option combination", "why_tests_cant": "Every control path of a 373-state machine.", "anchors": ["rfc3164/machine.go: (*machine).Parse"]}
{"id": "C29", "title": "RFC3164 header fields", "statement": "For every input with a well-formed header '<PRI>TIMESTAMP HOST ', accepted or returned as a partial message, priority, facility, severity, timestamp and hostname are exactly those written in the input.", "quantifier": "every accepted input", "why_tests_cant": "All strings.", "anchors": ["rfc3164/machine.go: (*machine).Parse", "rfc3164/syslog_message.go: export"]}
{"id": "C30", "title": "RFC3164 tag, pid and message split", "statement": "An input HEADER TAG[PID]: TEXT, with PID free of ']' and TEXT nonempty, free of control characters and of ']', is accepted with app name TAG, proc id PID and message TEXT; HEADER TAG: TEXT likewise without proc id. (For a TEXT containing ']' the claim is refuted: the proc id is then taken from the text.)", "quantifier": "every header, TAG, PID and TEXT as described", "why_tests_cant": "All strings.", "anchors": ["rfc3164/machine.go: (*machine).Parse", "rfc3164/machine.go.rl: grammar and actions"]}
{"id": "C31", "title": "RFC3164 year option", "statement": "With WithYear(Year{y}) the timestamp of a Stamp message is month, day and time of the input in year y, except that 29 February of a common year becomes 1 March.", "quantifier": "every y and every Stamp timestamp, UTC or any fixed zone of WithLocaleTimezone", "why_tests_cant": "All years and dates, leap years.", "anchors": ["rfc3164/year.go", "rfc3164/machine.go.rl: set_timestamp"]}
{"id": "C32", "title": "RFC3164 timezone options", "statement": "WithTimezone changes only the zone in which the instant of the timestamp is displayed, never the instant, nor any other field, nor whether the input is accepted; WithLocaleTimezone interprets the wall clock in the given zone; RFC3339 timestamps are taken as written whatever the options.", "quantifier": "every location for WithTimezone, every fixed-offset zone for WithLocaleTimezone, every timestamp", "why_tests_cant": "All offsets and dates.", "anchors": ["rfc3164/machine.go.rl: set_timestamp", "rfc3164/options.go"]}
{"id": "C33", "title": "WithRFC3339 is conservative", "statement": "Turning on WithRFC3339 does not change the result of any input accepted without it, and the inputs it adds have an RFC3339 timestamp, which is the timestamp of the message.", "quantifier": "every input", "why_tests_cant": "All strings.", "anchors": ["rfc3164/machine.go: (*machine).Parse"]}
{"id": "C34", "title": "RFC3164 best effort is conservative", "statement": "Best effort changes neither accepted inputs' results nor the errors; it returns a message iff after '<' there is a priority text followed by at least one more byte, and the message has the longest such priority; a complete timestamp is kept.", "quantifier": "every input", "why_tests_cant": "All strings.", "anchors": ["rfc3164/machine.go: (*machine).Parse"]}
{"id": "C35", "title": "RFC3164 machine reuse", "statement": "The result of Parse depends only on the input and the options, not on earlier calls.", "quantifier": "every sequence of inputs", "why_tests_cant": "Histories.", "anchors": ["rfc3164/machine.go: (*machine).Parse"]}
{"id": "C36", "title": "Octet counting: well-formed streams", "statement": "A stream that is a concatenation of frames LEN SP MSG with 0 < LEN <= max and valid RFC5424 messages emits exactly one result per frame, in order, each equal to what the RFC5424 parser returns for MSG, and nothing else.", "quantifier": "every list of messages, every max message length; maximum message lengths up to the largest int minus 21 (above that: C69)", "why_tests_cant": "Unbounded streams.", "anchors": ["octetcounting/parser.go: run", "octetcounting/scanner.go"]}
{"id": "C37", "title": "Octet counting: chunking does not matter", "statement": "The emitted results depend only on what the io.Reader delivers. In particular they depend only on the bytes, however they are split into reads, with or without empty reads (fewer than a hundred in a row) and whether the last bytes come together with an error or not.", "quantifier": "every splitting of every finite stream", "why_tests_cant": "All splittings.", "anchors": ["octetcounting/scanner.go", "octetcounting/parser.go"]}
{"id": "C38", "title": "Octet counting: maximum length is enforced", "statement": "A frame announcing more than the maximum message length makes the parser emit one error without a message and stop; the error is the too-long error when the announced length is below 2^63 (it is another error from there on, because of the conversion to int). No message longer than the maximum is ever parsed.", "quantifier": "every stream and every maximum; maximum message lengths up to the largest int minus 21 (above that: C69)", "why_tests_cant": "Includes numbers that overflow.", "anchors": ["octetcounting/parser.go: run", "octetcounting/scanner.go: scanMsgLen"]}
{"id": "C39", "title": "Octet counting: strict mode stops at the first error", "statement": "Without best effort at most one emitted result carries an error, it is the last one, and it carries no message.", "quantifier": "every stream; maximum message lengths up to the largest int minus 21 (above that: C69)", "why_tests_cant": "All streams.", "anchors": ["octetcounting/parser.go: run"]}
{"id": "C40", "title": "Octet counting: best effort survives bad messages", "statement": "With best effort an invalid message inside a well-formed frame yields a result carrying its error and parsing goes on with the next frame.", "quantifier": "every stream of well-formed frames; maximum message lengths up to the largest int minus 21 (above that: C69)", "why_tests_cant": "All streams.", "anchors": ["octetcounting/parser.go: run"]}
{"id": "C41", "title": "Octet counting: when data is lost silently", "statement": "No error is emitted exactly when the stream is at least one valid frame followed by the end, a read error or a NUL byte. So if the stream has no NUL byte and reading does not fail, no byte is ignored silently; but a NUL byte or a transient read error directly after a frame hides everything that follows (the naive claim is refuted).", "quantifier": "every stream; maximum message lengths up to the largest int minus 21 (above that: C69)", "why_tests_cant": "All streams; NUL bytes.", "anchors": ["octetcounting/scanner.go: read, Scan", "octetcounting/parser.go: run"]}
{"id": "C42", "title": "Octet counting: terminates", "statement": "Parse returns and does not panic for every reader with finitely many reads, whatever errors, empty reads and bytes it delivers, and emits at most one result more than bytes and errors were delivered.", "quantifier": "every finite stream", "why_tests_cant": "All streams.", "anchors": ["octetcounting/parser.go: run"]}
{"id": "C43", "title": "Octet counting: parser reuse", "statement": "A parser can be reused for several streams: the results for a stream do not depend on earlier streams.", "quantifier": "every sequence of streams", "why_tests_cant": "Histories.", "anchors": ["octetcounting/parser.go: Parse, scan, unscan"]}
{"id": "C44", "title": "Non-transparent: well-formed streams", "statement": "A new parser given any sequence of messages, each followed by the trailer, emits exactly one result per message, in order, equal to the RFC5424 parser's result for that message. A message starts with '<' and does not contain the trailer directly followed by '<' (it may contain the trailer otherwise). Every stream that starts with '<' is such a sequence followed by bytes without trailer.", "quantifier": "every list of messages, LF and NUL trailers", "why_tests_cant": "Unbounded streams.", "anchors": ["nontransparent/parser.go: Exec, process, OnCompletion"]}
{"id": "C45", "title": "Non-transparent: unterminated tail", "statement": "The bytes after the last trailer are parsed and emitted exactly once, after all messages; the result carries the parser's error, or the reading error (unexpected EOF or the reader's own) when they parsed well.", "quantifier": "every stream", "why_tests_cant": "All streams.", "anchors": ["nontransparent/parser.go: OnErr, OnCompletion"]}
{"id": "C46", "title": "Non-transparent: parser reuse (exact behaviour; full independence is refuted)", "statement": "Reusing a parser for another stream keeps the stream's own results, in order, but is not independent of earlier streams: the last message of the previous stream is emitted again before them, and, if the new stream ends right after a trailer at end of file, the unterminated tail of the previous stream may be emitted again after them; nothing else is added. (Independence is refuted for every driver behaviour.)", "quantifier": "every sequence of streams", "why_tests_cant": "Histories.", "anchors": ["nontransparent/parser.go: candidate, lastChunk, readError"]}
{"id": "C47", "title": "Non-transparent: the frame automaton never sticks, no panic", "statement": "Once a stream starts with '<', the framing automaton accepts every further byte, for every cutting of the stream into windows; no stream and no history makes the parser panic.", "quantifier": "every stream and trailer type", "why_tests_cant": "All byte sequences.", "anchors": ["nontransparent/parser.go: Exec"]}
{"id": "C48", "title": "Trailer type text round trip", "statement": "Unmarshalling the marshalled text of a trailer type gives it back; the accepted texts are exactly LF and NUL in any letter case, bare or between two double or two single quotes; anything else is an error and sets the receiver to -1; marshalling fails exactly for values other than LF and NUL.", "quantifier": "every integer trailer type, every text", "why_tests_cant": "All strings and ints.", "anchors": ["nontransparent/trailer_type.go"]}
{"id": "C49", "title": "Decimal conversion", "statement": "UnsafeUTF8DecimalCodePointsToInt returns the decimal value for every digit string whose value is below 2^63 (so for up to 18 digits), leading zeros included; for any longer string the value reduced to 64 bits.", "quantifier": "every digit string", "why_tests_cant": "All lengths.", "anchors": ["common/functions.go: UnsafeUTF8DecimalCodePointsToInt"]}
{"id": "C50", "title": "RemoveBytes", "statement": "RemoveBytes returns the data without exactly the bytes at the given increasing in-range positions, never panics on them. It changes nothing in the memory it is given, whatever slice it is called on: the result lies in a newly allocated array (or is nil).", "quantifier": "every data, offset and strictly increasing positions", "why_tests_cant": "All positions.", "anchors": ["common/functions.go: RemoveBytes"]}
{"id": "C51", "title": "Facility and severity texts", "statement": "Every message returned by the RFC5424 or RFC3164 parser (complete or partial), and every built message after a priority in 0..191 was set, has nonempty texts: FacilityMessage, FacilityLevel, SeverityMessage, SeverityLevel, SeverityShortLevel are the table entries for priority/8 and priority mod 8 of the (last set) priority; all are nil on a built message without a good priority. FacilityLevel and SeverityLevel together determine the priority. FacilityLevel and SeverityShortLevel are the RFC 5427 keywords, except facility 13 ('security' instead of 'audit'). ComputeFromPriority called with 192..255 gives empty facility texts.", "quantifier": "all 192 priorities; every message", "why_tests_cant": "Finite but must hold for parsed messages of any input.", "anchors": ["syslog.go: FacilityMessage, FacilityLevel, Severity*", "common/facility.go", "common/severity.go"]}
{"id": "C52", "title": "Options of the stream parsers", "statement": "For the octet counting parser only the presence of the best effort option and the last maximum length matter, in any order and with repetitions; for the non-transparent parser only the presence of the best effort option and the last WithTrailer with a known trailer matter, and WithMaxMessageLength is ignored; HasBestEffort tells whether the option was given, also after any streams.", "quantifier": "every list of options, every history of streams", "why_tests_cant": "option lists and histories are unbounded", "anchors": ["options.go", "octetcounting/parser.go NewParser, HasBestEffort, WithMaxMessageLength, WithBestEffort", "nontransparent/parser.go: NewParser, WithTrailer, WithMaxMessageLength, HasBestEffort"]}
{"id": "C53", "title": "Non-transparent: a stream not starting with '<'", "statement": "If a stream contains a trailer but does not start with '<', nothing up to its last trailer is emitted as a message: no later well-formed message is recovered. What is emitted (nothing, the bytes after the last trailer, or an error for the first window) depends only on how the driving library treats a framing error.", "quantifier": "every stream, trailer type and driver behaviour", "why_tests_cant": "All streams.", "anchors": ["nontransparent/parser.go: Exec st0"]}
{"id": "C54", "title": "RFC5424 rejections are exactly the listed ones", "statement": "Parse rejects an input with a given error kind, column and (in best effort mode) partial message exactly when the input has the corresponding form of an explicit list: no '<', a PRIVAL that is empty or not followed by '>', no version, a version not followed by a space, a timestamp broken off or not in the calendar or not followed by a space, a header word empty or not followed by a space, each way structured data can break (with what happens to the parameters and elements read so far), and, with WithCompliantMsg, a message whose text after the BOM breaks off in a character. Every input is either accepted by the grammar or has exactly one such form.", "quantifier": "every input, both options, every machine history", "why_tests_cant": "There are infinitely many rejected inputs; kind, column and partial message must be right for each.", "anchors": ["rfc5424/machine.go: Parse, actions err_pri ... err_msgnotcompliant, errors Err*", "rfc5424/machine.go.rl"]}
{"id": "C55", "title": "RFC5424 errors are reported at the farthest viable byte", "statement": "For every rejected input the bytes before the reported column together with the offending byte cannot be completed to an accepted input (any completion gets the same error and partial message); and, unless the error is a duplicated SD-ID, a timestamp error, or a date outside the calendar, the bytes before the column can be completed to an accepted input. For a broken-off timestamp they can be completed exactly when some date of the calendar begins with the timestamp text read.", "quantifier": "every rejected input shorter than 2^63 bytes, every completion", "why_tests_cant": "Quantifies over all completions of all rejected inputs.", "anchors": ["rfc5424/machine.go: Parse, ColumnPositionTemplate"]}
{"id": "C56", "title": "RFC3164 rejections are exactly the listed ones", "statement": "Parse rejects an input with a given error kind and column (or, in the cases listed, without any error) and (in best effort mode) a given partial message exactly when the input has the corresponding form of an explicit list: no '<', a PRIVAL that is empty or not followed by '>', a timestamp that breaks off, that is not followed by a space (no error reported) or that denotes no day of the calendar, a hostname empty or not followed by a space, a message part that is empty or starts with a control character, and a message part that contains a later control character (no error reported; what is kept of tag and PID is part of the list). Every input is either accepted by the grammar or has exactly one such form.", "quantifier": "every input, every combination of options, every machine history", "why_tests_cant": "There are infinitely many rejected inputs; kind, column and partial message must be right for each.", "anchors": ["rfc3164/machine.go: Parse, Err", "rfc3164/machine.go.rl"]}
{"id": "C57", "title": "RFC3164 errors are reported at the farthest viable byte", "statement": "For every input rejected with an error, the bytes before the reported column together with the offending byte cannot be completed to an accepted input: any completion gets the same error and partial message. Unless the error concerns the timestamp, the bytes before the column can be completed to an accepted input; for a broken-off timestamp they can be completed to a text of the form of a timestamp, and to an accepted input exactly when some date of the calendar begins with the timestamp text read.", "quantifier": "every rejected input with an error, every completion, every combination of options", "why_tests_cant": "Quantifies over all completions of all rejected inputs.", "anchors": ["rfc3164/machine.go: Parse, err* actions"]}
{"id": "C58", "title": "Octet-counting results are exactly determined by the stream", "statement": "For every stream, the sequence of results emitted is exactly the one the framing describes: a result for each frame in turn, then, at the first point where no frame can be read, exactly one error result for each malformed form (no digit where the length should be, a length over the maximum, no blank after the length, a length of 2^63 or more, a message cut short) naming the bytes found and what was expected, or nothing where the stream ends cleanly.", "quantifier": "every stream, every chunking, every maximum length and option list, every earlier use of the parser; maximum message lengths up to the largest int minus 21 (above that: C69)", "why_tests_cant": "All streams, including every malformed form at every position.", "anchors": ["octetcounting/parser.go: Parse, run, scan", "octetcounting/scanner.go: Scan", "octetcounting/tokens.go"]}
{"id": "C59", "title": "What the error texts tell", "statement": "For every rejected input, the text of the error of the RFC5424 and RFC3164 parsers is a fixed wording (or the error of time.Parse, which occurs only for texts of the form of a timestamp whose day exceeds the length of the month) followed by ' [col N]', N being the decimal numeral of the column, at most the input length; N can be read back from the end of the text; the text determines the kind of the error, the column and the timestamp concerned; and it is one line of printable ASCII. The texts of the octet-counting errors determine the form of the error, the tokens and the numbers too; but they repeat bytes of the stream, so that they may contain e.g. newlines (refuted).", "quantifier": "every rejected input shorter than 2^63 bytes, every stream, every option list; pairs of them; maximum message lengths up to the largest int minus 21 (above that: C69)", "why_tests_cant": "All inputs, and all pairs of errors.", "anchors": ["rfc5424/machine.go: Err* constants, ColumnPositionTemplate, fmt.Errorf", "rfc3164/machine.go: err* variables", "octetcounting/parser.go: run", "octetcounting/tokens.go: String"]}
{"id": "C60", "title": "Options, HasBestEffort and Err over the life of a machine", "statement": "For every kind of machine or parser of the two packages, every list of options and every later sequence of calls (Parse, HasBestEffort, Err, WithBestEffort, options applied later): creation panics exactly if some option belongs to the other package or is WithYear(nil); Parse answers like a fresh machine made with the options in force; HasBestEffort tells whether the option is among them; the order and repetition of the options without argument does not matter, of the others the last one counts; an option applied later panics exactly if it does not belong to that type (e.g. WithCompliantMsg on a parser); Err is nil before the first Parse and afterwards the error of the last Parse. For RFC5424, Err is nil exactly if the last input was a valid message; for RFC3164 that documented claim is refuted (some rejected inputs leave it nil).", "quantifier": "every constructor, option list, call sequence and input", "why_tests_cant": "All call histories.", "anchors": ["rfc5424/machine.go: NewMachine, WithBestEffort, HasBestEffort, Err", "rfc5424/parser.go: NewParser, HasBestEffort", "rfc5424/options.go", "rfc3164/machine.go: NewMachine, With*, HasBestEffort, Err", "rfc3164/options.go", "syslog.go: Machine, MachineOption"]}
{"id": "C61", "title": "WithYear(CurrentYear) fixes the year when the option is applied", "statement": "A parser created with WithYear(CurrentYear) dates every RFC3164 timestamp it ever reads in the year the clock showed at its creation (29 February becoming 1 March in a common year), whatever the clock shows when the message is parsed. The expectation that messages are dated in the current year is refuted.", "quantifier": "every creation year, every later history and every message accepted", "why_tests_cant": "Depends on the clock at two different moments; every history in between.", "anchors": ["rfc3164/year.go: YearOperation, CurrentYear, Year", "rfc3164/machine.go: WithYear"]}
{"id": "C62", "title": "Messages are independent values; RFC 5424 Parse only adds to memory", "statement": "Messages returned by rfc5424 Parse or built with the builder share no memory with each other, with the input buffers or with the machine. In any program that creates machines, buffers and messages, parses slices of buffers, overwrites buffer bytes, calls the builder's setters and ComputeFromPriority, writes through the pointers of messages and into their structured-data maps, in any order: reading a message through its pointers gives exactly what the operations on that message alone give on plain values; every Parse returns what a new machine with the same options returns on the bytes then in its input, whatever was parsed before; buffers change only by the program's own writes; nothing panics. In any memory whatsoever, Parse leaves every existing cell as it was and everything reachable from the returned message is newly allocated.", "quantifier": "all programs (sequences of operations of any length over any number of machines, buffers and messages), all buffer contents and slices; all memories for the second part", "why_tests_cant": "aliasing shows only for particular interleavings of parse, overwrite and edit; there are infinitely many programs and memories", "anchors": ["rfc5424/machine.go: Parse", "rfc5424/syslog_message.go: export", "rfc5424/builder.go: set, SetParameter", "syslog.go: ComputeFromPriority", "common/functions.go: RemoveBytes"]}
{"id": "C63", "title": "Copying a message struct shares its structured data and nothing else the setters change", "statement": "After c := *m, calls of setters and of ComputeFromPriority on c and on m (and on further copies) act on each alone for priority, facility, severity, version, timestamp, hostname, appname, procid, msgid and message; structured data present when the copy was made remains one object seen through both, including elements and parameters set or deleted later through either; when there was none, each gets its own the first time an element is set.", "quantifier": "all programs: sequences of creating, parsing, copying, setting, and editing of structured data, of any length, with any arguments", "why_tests_cant": "copies of copies interleaved with setters form an infinite family of programs", "anchors": ["rfc5424/syslog_message.go: SyslogMessage", "rfc5424/builder.go: set, SetElementID, SetParameter", "syslog.go: Base, ComputeFromPriority"]}
{"id": "C64", "title": "RFC 3164 Parse only adds to memory", "statement": "rfc3164 Parse, on any memory and any slice of it, on a machine with any options and any history, leaves every existing cell as it was; the returned message, read through its pointers, is what a new machine with the same options returns for the bytes of the slice, and everything reachable from it is newly allocated (so no two messages, and no message and the input buffer or the machine, share memory).", "quantifier": "all memories, slices, options and machine histories", "why_tests_cant": "aliasing shows only for particular histories of calls and memory contents", "anchors": ["rfc3164/machine.go: Parse", "rfc3164/syslog_message.go: export", "syslog.go: ComputeFromPriority"]}
{"id": "C65", "title": "Sending messages over octet counting", "statement": "Any non-empty sequence of valid messages - made with the builder, or returned without error by a parser - printed with String(), each preceded by its length in decimal and a space, and read by an octet-counting parser (any options, any previous use, any splitting into reads) whose maximum length no text exceeds, yields exactly one result per message, in order, without errors; the messages received are exactly those sent iff every character of every parameter value is ASCII or U+00C3, and in every other case they differ only in parameter values.", "quantifier": "all sequences of messages from any builder histories or accepted inputs, all map iteration orders, all options, earlier streams and readers; maximum message lengths up to the largest int minus 21 (above that: C69)", "why_tests_cant": "End-to-end claim over all message sequences, histories and read schedules.", "anchors": ["rfc5424/builder.go:String", "octetcounting/parser.go:Parse", "octetcounting/scanner.go:Scan", "rfc5424/machine.go:Parse"]}
{"id": "C66", "title": "Sending messages over non-transparent framing; forged messages", "statement": "The same sequence, each printed message followed by the trailer, read by a new non-transparent parser: exactly the messages sent are received, in order, without errors, iff no message text and no parameter value contains the trailer directly followed by '<' and every character of every parameter value is ASCII or U+00C3. A message violating the first condition is cut, so there are more results than messages. In particular whoever chooses the text of one message can forge another one: a message whose text is g, the trailer and the printed form of a message m2 is received as two messages, the one with text g and m2.", "quantifier": "all sequences of messages from any builder histories or accepted inputs, all map iteration orders, both trailers, all options, any ending of the reader", "why_tests_cant": "Exact condition over all contents of texts and values; forging is quantified over all pairs of messages.", "anchors": ["rfc5424/builder.go:String", "nontransparent/parser.go:Parse", "rfc5424/machine.go:Parse"]}
{"id": "C67", "title": "Octet counting: a frame's result is emitted as soon as the frame has been read", "statement": "For an octet counting parser with any options and any earlier streams: if the reads made so far carry complete frames followed by anything, the parser hands the result of every one of those frames to the listener before it makes any further read of the stream: a message is never held back until the next one arrives. (Without best effort this holds up to the first message that has an error, where the stream ends.) Only a read error or a hundred empty reads in a row are excluded.", "quantifier": "all options, all earlier streams, all lists of frames within the maximal length, all ways in which the frames are cut into reads, all trailing bytes, all later reads including blocking ones; maximum message lengths up to the largest int minus 21 (above that: C69)", "why_tests_cant": "Tests deliver the whole stream at once from memory and look at the results after Parse returns; that no result waits for another read needs every cutting of the stream into reads and every interleaving of the buffer's fills.", "anchors": ["/repo/octetcounting/parser.go: parser.Parse, run, parse", "/repo/octetcounting/scanner.go: Scan, scanMsgLen, scanSyslogMsg"]}
{"id": "C68", "title": "Non-transparent framing: the latest message is withheld until the next one or the end of the stream", "statement": "While the stream of a new non-transparent parser is still open, after any number n of complete messages (each starting with '<', followed by the trailer, perhaps containing trailers not followed by '<') and any bytes without a trailer, exactly the first n-1 messages have been handed to the listener, in order, each with the result of the RFC 5424 machine: the n-th is held back, however long the stream stays silent.", "quantifier": "all options, trailers, lists of messages, unterminated bytes after them, all drivers (the unspecified behaviour of the ragel reading library)", "why_tests_cant": "Tests look at the results after Parse has returned; which results are out at each moment depends on the whole history of the stream.", "anchors": ["/repo/nontransparent/parser.go: Exec, process, Parse", "/repo/nontransparent/parser.go.rl: on_trailer, on_init"]}
{"id": "C69", "title": "Octet counting: the twenty largest maximum lengths shrink the buffer to sixteen bytes", "statement": "With WithMaxMessageLength(n) for n one of the twenty largest ints (math.MaxInt64 among them) the buffer size n+20 overflows, and bufio falls back to sixteen bytes: the parser still parses frames of at most sixteen bytes (the shortest valid RFC 5424 message has sixteen), but at the first frame with a longer message, however far below the maximum and although the stream carries it completely, it emits one error saying that the end of the stream was found after the first sixteen bytes (with best effort, together with what the RFC 5424 machine makes of those sixteen bytes) and stops. So the maximum a user can rely on ends at the largest int minus 21.", "quantifier": "all such maxima, all options, earlier streams, readers, frames before and after", "why_tests_cant": "The wrap-around needs the twenty extreme values of an int option; a test with ordinary maxima, however many, never meets it.", "anchors": ["/repo/octetcounting/scanner.go: NewScanner, scanSyslogMsg", "/repo/octetcounting/parser.go: WithMaxMessageLength, run"]}
{"id": "C70", "title": "Octet counting: resuming after a bad message", "statement": "When Parse is given a *bufio.Reader whose buffer has at least the maximum length plus 20 bytes, it reads through it: the results are those for any other reader delivering the same stream, and a parser without best effort that stops at a message with an error leaves the *bufio.Reader exactly behind that message, so that calling Parse again with it yields the results of the rest of the stream. With any other reader this fails: bytes the parser has read ahead into its own buffer are neither parsed nor left in the reader.", "quantifier": "all streams of frames, all positions of the first bad message, all bytes after it, all cuttings into reads, all buffer states and sizes, all earlier streams, all maxima from the smallest int to the largest minus 21", "why_tests_cant": "Where the reader stands after Parse depends on the reads, the buffer and everything before; tests look at the results only.", "anchors": ["/repo/octetcounting/scanner.go: NewScanner, scanSyslogMsg", "/repo/octetcounting/parser.go: Parse, run"]}
{"id": "C71", "title": "Parsing and setting take a linear number of steps", "statement": "A call of Parse of the RFC 5424 or of the RFC 3164 machine always ends, and the number of statements, tests and jumps it executes is at most a constant times the length of the input plus one, whatever the input, the options and the calls made before; so is that of the machine behind every setter of the RFC 5424 builder, and of the non-transparent framing machine on one block of the stream. (A statement is counted as one whatever it copies; the constants are those of the generated machines.)", "quantifier": "all inputs of any length, all machines with any options after any history, all builder fields, messages and values of the package variables, all states of the framing machine", "why_tests_cant": "a test times a few inputs; that no input makes the number of steps grow faster (a rescan, a backtracking loop, a loop that does not consume) is a statement about all inputs of all lengths", "anchors": ["rfc5424/machine.go: Parse", "rfc3164/machine.go: Parse", "rfc5424/builder.go: set", "nontransparent/parser.go: Exec"]}
{"id": "C72", "title": "Octet counting: delivered results do not depend on the reuse of the buffer", "statement": "The octet counting parser reads every stream through one buffer that it overwrites again and again, and the bytes of a frame are given to the RFC 5424 machine as a slice of that buffer. Still, every result is, when the listener gets it, the one determined by the bytes of the stream alone, and a message the listener keeps never changes afterwards except by what the listener itself does to it: not by later reads into the buffer, not by a reader that scribbles over the unused part of the slice it is given, not by later messages, later streams or edits of other messages; and nothing the listener does with the messages it got, its own machines, buffers and builders changes later results.", "quantifier": "all options, all sequences of streams given to one parser, all readers (any cutting into chunks, errors, empty reads, scribbling), all actions of the listener after each result and all programs run before", "why_tests_cant": "aliasing shows only when a later read happens to overwrite the bytes an earlier message was made from; a test sees one cutting of one stream, the claim is about all schedules of reads and all listeners", "anchors": ["octetcounting/scanner.go: Scan, scanSyslogMsg", "octetcounting/parser.go: Parse, run, parse, scan, unscan", "rfc5424/machine.go: Parse"]}
{"id": "C73", "title": "Non-transparent framing: delivered results do not depend on the reuse of memory", "statement": "The non-transparent framing parser is given each window of the stream as a slice of an array that the reading library may write over for the next window, gathers a message by appending windows to an array that is filled in place or replaced, and keeps the bytes after the last trailer as a slice of the library's memory. Still nothing panics, a window does not change while it is being read, every result is, when the listener gets it, the one determined by the bytes of the streams alone, and a message the listener keeps never changes afterwards except by what the listener itself does to it; and nothing the listener does with the messages it got, its own machines, buffers and builders changes later results. (Assumed of the library: each stream has arrays of its own, and the chunk handed over with a reading error is not written again.)", "quantifier": "all options, all sequences of streams given to one parser, all variants of the driving library covered by C44-C48, all placements of the windows in memory, all growth choices of append, all actions of the listener after each result and all programs run before", "why_tests_cant": "aliasing between the candidate, the windows and the messages shows only for particular placements and growth choices; a test sees one of them", "anchors": ["nontransparent/parser.go: Exec, process, OnErr, OnCompletion, Parse, NewParser", "rfc5424/machine.go: Parse"]}
{"id": "C74", "title": "Formats and framings are not taken for each other", "statement": "A message an RFC 5424 machine accepts is never accepted by an RFC 3164 machine, whatever the options of both: without WithRFC3339 the result is the timestamp error at the byte after PRI, with WithRFC3339 there is no error; the message is nil, or in best effort mode carries facility, severity and priority and nothing else. Conversely an input a (not best effort) RFC 3164 machine accepts is an error for every RFC 5424 machine. The octet counting parser answers a stream starting with '<' (every non-transparent stream) with one result, an error naming the '<' found instead of a length; the non-transparent parser answers a stream that does not start with '<' (every octet counted stream) with at most one result, and that one carries an error.", "quantifier": "all inputs, machines in any state and with any options, stream parsers with any options, earlier streams (octet counting), chunkings of well behaved readers, endings", "why_tests_cant": "Tests feed some messages of one format to the other parser; that the accepted languages are disjoint, for all messages and all options, is a statement about two infinite languages.", "anchors": ["rfc5424/machine.go.rl: Parse", "rfc3164/machine.go.rl: Parse, WithRFC3339", "octetcounting/parser.go: run, Parse", "nontransparent/parser.go.rl: Parse"]}
{"id": "C75", "title": "RFC3164 WithLocaleTimezone in a location with transitions", "statement": "With WithLocaleTimezone(loc) the month, day and time of a Stamp message, in the year of WithYear (29 February of a common year being 1 March), are read in loc: if the clocks of loc ever show that reading, the timestamp shows exactly it, at the offset in effect in loc at that instant; if a transition of loc skips the reading, the instant is the reading taken at the offset in effect just before or just after the transition. The result is the same with both ways Go releases have resolved such readings.", "quantifier": "every Stamp timestamp, year, and every location whose offsets are at most b seconds, whose transitions are at least 2b seconds apart, for some b, and whose first transition is after the year 0", "why_tests_cant": "All dates, years and time zone databases; readings near a transition.", "anchors": ["rfc3164/machine.go: set_timestamp (1163-1177)", "rfc3164/options.go: WithLocaleTimezone"]}
{"id": "C76", "title": "Helpers of package testing", "statement": "Whatever its random source draws, RandomBytes(n), if it returns, returns n ASCII letters, one per 6-bit number below 52 drawn, and it returns exactly when the source yields n such numbers; every letter stands for exactly one number. RightPad(s, limit) has exactly limit bytes, is s followed by spaces or a prefix of s, and panics exactly for a negative limit. The message made of MaxPriority, MaxVersion, MaxRFC3339MicroTimestamp, MaxHostname, MaxAppname, MaxProcID, MaxMsgID and MaxMessage is accepted by every RFC 5424 machine with exactly these fields, has 8192 bytes and comes through the octet counting parser with its default maximum; with LongerMaxMessage it has 65529 bytes and comes through iff the maximum is at least that. YearTime is the timestamp a Stamp message gets with WithYear of that year.", "quantifier": "all random sources, n, strings, limits; all random contents of the maximum fields; all parser options, histories and chunkings", "why_tests_cant": "The values are random; tests see a few draws.", "anchors": ["testing/testing.go: RandomBytes, RightPad, YearTime, MaxMessage, LongerMaxMessage"]}
{"id": "C77", "title": "Octet counting: bounded read-ahead", "statement": "When the octet counting parser hands the result of the i-th frame of a stream to the listener, it has taken from the reader at most max(maxMessageLength+20, 16) bytes beyond the end of that frame, however much the reader offers; so a slow listener holds the sender back and the parser holds no more of the stream than its buffer.", "quantifier": "all streams of well-formed frames followed by anything, all readers (chunkings, empty reads), options, earlier streams, frames i", "why_tests_cant": "Depends on how reads and frames interleave, for every chunking; no test looks at what is still unread.", "anchors": ["octetcounting/scanner.go: NewScanner, scanSyslogMsg", "octetcounting/parser.go: run, Parse"]}
{"id": "C78", "title": "A parser can be used again after its listener or reader panicked", "statement": "If the listener or the io.Reader panics (or ends the goroutine) during Parse of a stream parser and the caller recovers: (a) octet counting: the parser keeps nothing; whatever streams were parsed or interrupted before, wherever, the next stream gives what a new parser gives, and until the panic the listener had been handed a prefix of the results it is handed without one; (b) non-transparent framing: a panic of the listener on the result for message m makes the next stream start with the result for m once more (without one more trailer if m ends with one), followed by what a new parser gives; after a panic of the reader the next stream starts with the result of the last message that was read completely (which had not been handed over yet), so that none is lost or given twice; after any history of streams finished or interrupted in either way, the next one gives what a new parser gives, with at most one result before and at most one after it.", "quantifier": "every option list, every history of streams finished or interrupted at any call of the listener or reader (octet counting); every list of messages, every interrupted message, every next stream starting with '<', every modelled behaviour of the driver (non-transparent)", "why_tests_cant": "the crash point ranges over every call of foreign code in every stream and the history of such crashes is unbounded", "anchors": ["octetcounting/parser.go:Parse", "octetcounting/parser.go:run", "octetcounting/parser.go:scan", "octetcounting/parser.go:unscan", "nontransparent/parser.go:process", "nontransparent/parser.go:OnCompletion", "nontransparent/parser.go:Exec"]}
{"id": "C79", "title": "32-bit platforms: results do not depend on the width of int, except for huge announced lengths", "statement": "Where Go's int has 32 bits, the octet counting parser, too, returns without panic whatever the reader delivers; its results depend only on the bytes delivered, not on earlier streams or on how the stream is cut into reads. With a maximum length below 2^31 - 20 they are the same as where int has 64 bits, provided the last 64-bit result is a message, a bad message (with best effort: one not lost completely), a missing length, or a too long or cut message whose announced length is below 2^31. In particular every stream of frames with good messages is read alike. The proviso is needed: with 32 bits a length of 2^32 + 16 is taken for 16, so a message far above the maximum is accepted instead of refused (refuted: 'a length above the maximum is always refused'). common.UnsafeUTF8DecimalCodePointsToInt yields the decimal value reduced to the width of int, so the same value for up to nine digits; priorities and versions do not depend on it.", "quantifier": "every stream and way of cutting it into reads, every option list with a maximum in range; every byte string for the conversion", "why_tests_cant": "tests run on the 64-bit machine of the developer; the claim is about all streams on two kinds of platforms", "anchors": ["octetcounting/scanner.go:NewScanner", "octetcounting/scanner.go:scanSyslogMsg", "octetcounting/parser.go:run", "common/functions.go:UnsafeUTF8DecimalCodePointsToInt"]}
{"id": "C80", "title": "Builders in several goroutines, statement by statement", "statement": "Goroutines that make builder calls, each on a message of its own, may be interleaved at every single statement, inside the setters too: as long as no two of them are at the same time between SetParameter's assignment of the package variable and its return, no call panics, after each of its calls a goroutine's message is exactly what its calls produce when it runs alone, and it can always finish its calls. That condition holds by itself when at most one goroutine uses SetParameter. Without it the claim is refuted: a goroutine interrupted inside SetParameter can panic, or store its value under the name given by the other one.", "quantifier": "all numbers of goroutines, messages, call sequences and arguments, and all interleavings of single statements", "why_tests_cant": "the interleavings are unbounded, and the race detector only reports those that happen", "anchors": ["rfc5424/builder.go: set, SetParameter, currentid, currentparamname"]}
{"id": "C81", "title": "Options applied to a stream parser after it was created", "statement": "An option is a function that may also be applied to a parser that NewParser has already returned, before, between or after streams. For octet counting, a parser that got later options reports, on every next stream, exactly the results of a parser created with all of them together, except that when best effort was asked for only later, a message that does not parse is reported with its error but without the partial message. For non-transparent framing, a later WithTrailer works like an early one: before any stream the results are those of a parser created with the original options and the later trailers, and after any history of streams and options, for data that starts with '<', at most one extra result precedes and at most one follows them; a later WithBestEffort changes no result. HasBestEffort answers yes in both cases, although nothing partial is recovered.", "quantifier": "all options at creation, all later sequences of options and streams (any readers, any data), and all next streams", "why_tests_cant": "histories of options and streams are unbounded, and the effect of each depends on the whole past", "anchors": ["options.go", "octetcounting/parser.go: NewParser, WithBestEffort, WithMaxMessageLength, HasBestEffort, Parse", "nontransparent/parser.go: NewParser, WithTrailer, WithBestEffort, HasBestEffort, Parse"]}
{"id": "C82", "title": "Listeners that use the parser that is calling them", "statement": "A listener may, while it is handed a result, apply options to the very parser that calls it and call Parse on it with other readers, from within those calls again, any number of times. Whatever it does, every such Parse returns and nothing panics. A listener of an octet counting parser that parses a second reader while it is handed the n-th result is handed: the first n results of the outer stream, then all results of the second reader as a new parser would report them, then what depends on the second reader and the options only (nothing if the second reader is a non-empty sequence of well-formed frames none of which stops the parser: every message parses, or best effort is on): the rest of the outer stream is never reported. A listener of a non-transparent parser that parses a second framed stream while it is handed the result of a message is handed that result once more first (of the message without a trailer byte at its end), then the results of the second stream, and then all the remaining results of the outer stream.", "quantifier": "all sequences of what the listener does in its calls (options, nested streams to any depth), all options, readers and data; for the exact results all outer and nested streams (non-transparent: of whole messages) and every call in which the nested stream is parsed", "why_tests_cant": "the behaviour depends on the state the outer call has reached, on both streams and on the nesting, which are unbounded", "anchors": ["octetcounting/parser.go: Parse, run, scan, unscan, WithListener", "nontransparent/parser.go: Exec, process, OnCompletion, Parse, WithListener"]}
{"id": "C83", "title": "Options applied by a listener in the middle of a stream", "statement": "A listener may apply options to the parser that is handing it a result. Octet counting: a new maximum is checked from the next frame on, and after a request for best effort bad messages no longer end the stream, from the next frame on; but messages are still parsed with the best effort setting the parser was created with, so nothing is recovered of bad ones when best effort came only later. This describes all results of a stream of well-formed frames, provided every frame fits the buffer that was allocated when the stream began, 20 bytes more than the maximum in use then (at least 16 bytes); a maximum raised by the listener does not enlarge that buffer. Non-transparent framing: options other than WithTrailer change no result; a trailer changed by the listener while it is handed the result of a message makes the rest of the stream disappear: no later message is reported, unless the new trailer occurs in it.", "quantifier": "all sequences of options applied in the calls of the listener (octet counting: one list for each call; non-transparent: any without WithTrailer, or one change of the trailer at any call), all histories of options and streams before, all streams of well-formed frames or messages (non-transparent without WithTrailer: all data)", "why_tests_cant": "the effect depends on where in an unbounded stream the option is applied and on everything applied before", "anchors": ["options.go", "octetcounting/parser.go: run, Parse, WithBestEffort, WithMaxMessageLength, WithListener", "octetcounting/scanner.go: NewScanner, scanSyslogMsg", "nontransparent/parser.go: Exec, process, WithTrailer, WithBestEffort, WithListener"]}
{"id": "C84", "title": "RFC3164 best effort keeps exactly the fields that can be read", "statement": "With best effort, if the text up to the space after the host name is well formed, the returned message has its priority, timestamp and host name, whatever bytes follow; if a tag of 1 to 32 characters and ':' or '[' follow, it has that tag and the process id in the brackets too. Conversely, in any message Parse returns (with or without best effort), every field set is the one that is read from the input at its place after the fields before it, and the message text is set only if the whole input is accepted (and then no error is returned).", "quantifier": "all inputs, all option settings, all states of the machine (whatever it parsed before); for the first part all header texts and all continuations", "why_tests_cant": "every continuation of every header, of unbounded length", "anchors": ["rfc3164/machine.go: (*machine).Parse", "rfc3164/syslog_message.go: export"]}
{"id": "C85", "title": "Octet counting: the work for a stream is linear in the stream", "statement": "Whatever a reader delivers and however it cuts it up, parsing the stream takes a number of steps at most proportional to the number of bytes delivered plus the number of answers of the reader plus one: iterations of loops and calls in the parser, the scanner and bufio, bytes copied by Read, moved to the front of the buffer or read as a length, and the statements executed by the RFC 5424 machine in all the messages together. So no stream (many short frames, long lengths, frames arriving byte by byte, broken frames) makes the parser scan, move or parse the same bytes again and again. (Not counted: the allocation of the buffer, once for each stream, and what the listener does. A statement of the machine is counted as one whatever it copies.)", "quantifier": "all readers (any data, chunking, errors, empty reads), all options, all earlier streams, and parsers in any state", "why_tests_cant": "a test times a few streams; that none is superlinear is a statement about all streams of all lengths and chunkings", "anchors": ["octetcounting/parser.go: Parse, run, parse", "octetcounting/scanner.go: Scan, scanMsgLen, scanSyslogMsg, read, unread", "rfc5424/machine.go: Parse"]}
{"id": "C86", "title": "Non-transparent framing: the work for a stream is linear in the stream", "statement": "Parsing a non-transparent stream takes a number of steps at most proportional to the number of bytes of the stream, plus those of the streams the same parser read before, plus one: calls of process, OnErr, OnEOF and OnCompletion, bytes appended to the candidate, bytes cut by the driver, and the statements executed by Exec and by the RFC 5424 machine in all their calls together. So no stream (many empty messages, '<' after '<', trailers alone, a long message in many lines) makes the parser collect or parse the same bytes more than a fixed number of times. The bytes of the earlier streams count because a candidate that an earlier stream left behind is parsed again at the end of every later stream that starts no new message; with a new parser the bound is in the stream alone. (Not counted: the growth of the candidate's array by append, and what the listener does. A statement of a machine is counted as one whatever it copies.)", "quantifier": "all streams, all ways they end, all options, all earlier streams, every behaviour of the driver that calls Exec", "why_tests_cant": "a test times a few streams; that none is superlinear is a statement about all streams of all lengths", "anchors": ["nontransparent/parser.go: Parse, Exec, process, OnErr, OnEOF, OnCompletion", "rfc5424/machine.go: Parse"]}
{"id": "C87", "title": "RFC5424: what Parse copies: linear in the message, but quadratic in the escapes of a parameter value", "statement": "For every input, the statements of Parse take at most four times as many bytes of text from the input as the input has (string(m.text()), conversions, the assignment of a parameter, the message: no part of a message is copied again and again). What common.RemoveBytes moves to un-escape parameter values is not linear: it is at most n * (n + 1) bytes for an input of n bytes, it is nothing when the input has no backslash, and the accepted message <1>1 - - - - - [a b=\"\\\"...\\\"\"] with k escaped quotes (23 + 2k bytes) makes RemoveBytes move exactly k * k + 2k bytes, so no constant times the length bounds it. (Not counted: what append allocates for the list of positions, the maps, and what time.Parse copies itself.)", "quantifier": "all inputs, all machines (both modes, any earlier use); the lower bound for every number of escapes", "why_tests_cant": "a test times a few messages; that none is worse than quadratic, and which part is linear, are statements about all messages of all lengths", "anchors": ["rfc5424/machine.go: Parse, text", "common/functions.go: RemoveBytes"]}
{"id": "C88", "title": "RFC3164: what Parse copies: linear in the message, but quadratic in the closing brackets of the content", "statement": "For every input, the statements of Parse take, the content apart, at most three times as many bytes of text from the input as the input has (priority, timestamp, hostname, tag, message). The content is taken again at every ] while it is read, so it is not linear: at most n * (n + 1) / 2 bytes for an input of n bytes, nothing when the input has no ], and the accepted message <1>Oct 11 22:14:15 h a[]]...] with k + 1 brackets (24 + k bytes) makes Parse copy exactly k * (k + 1) / 2 bytes as content, under all options, so no constant times the length bounds it. (Not counted: what time.Parse and the errors copy.)", "quantifier": "all inputs, all machines (all options, both modes, any earlier use); the lower bound for every number of brackets", "why_tests_cant": "a test times a few messages; that none is worse than quadratic, and which part is linear, are statements about all messages of all lengths", "anchors": ["rfc3164/machine.go: Parse, text", "rfc3164/machine.go.rl: set_content"]}
{"id": "C89", "title": "String copies quadratically: EscapeBytes appends character by character", "statement": "String of a valid message that answers a text of n bytes writes, in all the strings it makes by concatenation and Sprintf on the way, at least n and at most n * (2n + 3) bytes. Without structured data it is linear: at most 2n. With a parameter whose value is k ASCII characters it writes at least k * (k + 1) / 2 - 1 bytes, whatever the rest of the message and in whatever order the maps are visited, so no constant times the length of the answer bounds it. (Not counted: the sorting, what Format of the timestamp and string(value[i]) write.)", "quantifier": "all messages (valid or not), all iteration orders of the maps; the lower bound for every ASCII value of every length", "why_tests_cant": "a test times a few messages; a bound and its growth are statements about all messages of all lengths", "anchors": ["rfc5424/builder.go: String", "common/functions.go: EscapeBytes"]}
{"id": "C90", "title": "Setters: what they copy: linear in the arguments, but quadratic in the escapes of a parameter value", "statement": "Every call of a Builder method, on every message and whatever was set before, copies at most three times the bytes of its arguments (the conversion to []byte, the text that is stored). Un-escaping is apart: SetParameter with a value of n bytes moves at most n * (n + 1) bytes in common.RemoveBytes, nothing when the value has no backslash, and no other call moves anything. It is not linear: SetParameter(\"a\", \"b\", v) with v = k escaped quotes (2k bytes) on a new message moves exactly k * k + 2k bytes. (Not counted: what append, the maps and time.Parse copy.)", "quantifier": "all calls with all arguments, all messages, all values of the package variables; the lower bound for every number of escapes", "why_tests_cant": "a test times a few values; that no call on any message copies more, and which part is linear, are statements about all arguments of all lengths", "anchors": ["rfc5424/builder.go: set, SetParameter, SetTimestamp, SetHostname, SetAppname, SetProcID, SetMsgID, SetElementID, SetMessage", "common/functions.go: RemoveBytes"]}
{"id": "C91", "title": "Octet counting: what is copied for a whole stream is linear in it when the maximum length is fixed", "statement": "For every stream of N bytes delivered in k answers of the reader, with any options and after any streams parsed before, the calls of Parse the octet counting parser makes end, and together they take at most 9 * (N + k + 1) bytes as text from their inputs and move at most 5 * (N + k + 1)^2 bytes un-escaping parameter values (RemoveBytes). Without best effort no call gets more than the maximum length M, and they move at most 3 * max(M, 0) * (N + k + 1) bytes: the quadratic cost of un-escaping (C87) is confined to one frame. The calls counted are the ones made: every result the listener gets is what one of them answered, in order and one for each call, except at most one more result, without a message, at the end.", "quantifier": "all streams, all ways of cutting them into reads, with and without errors, all options, all histories of the parser; also a parser in any state, if the run ends", "why_tests_cant": "a test times a few streams; that escapes cannot make the cost of a stream grow faster than the stream needs every stream and every cutting", "anchors": ["octetcounting/parser.go: (*parser).Parse, run, parse", "octetcounting/scanner.go: Scan, scanMsgLen, scanSyslogMsg", "rfc5424/machine.go: Parse, text", "common/functions.go: RemoveBytes"]}
{"id": "C92", "title": "Non-transparent framing: what is copied for a whole stream", "statement": "For every stream of N bytes, with any options, any end of the stream, whatever the driver of the state machine does with errors and with what is left at the end, and after any streams of together B bytes, the calls of Parse the non-transparent parser makes end, and together they take at most 13 * (B + N + 1) bytes as text from their inputs and move at most 10 * (B + N + 1)^2 bytes un-escaping parameter values (RemoveBytes). There is no maximum length, so the second bound is a square (C87). The calls counted are the ones made: the results the listener gets are what they answered, in order, one for each call.", "quantifier": "all streams and endings, all options, all behaviours of the driver, all histories of the parser", "why_tests_cant": "a test times a few streams; that no sequence of line ends, bad messages and leftovers of earlier streams makes the parser copy a message again and again needs every stream and history", "anchors": ["nontransparent/parser.go: (*machine).Parse, Exec, process, OnErr, OnEOF, OnCompletion", "rfc5424/machine.go: Parse, text", "common/functions.go: RemoveBytes"]}
