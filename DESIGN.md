# Formal model of influxdata/go-syslog in Coq 8.16.1

## Layers

* **L0, the code.** `rfc5424/machine.go`, `rfc3164/machine.go`, `rfc5424/builder.go` and
  `nontransparent/parser.go` contain Ragel-generated goto programs. `tools/ragel2coq.py`
  translates them *statement by statement* into data of the Coq type `GotoLang.code`
  (labels, gotos, `if`, `switch`, `p++`, `p--`, the leaf statements of the Ragel actions): files
  `Gen5424.v`, `Gen3164.v`, `GenBuilder.v`, `GenNT.v`.
  The translation is syntactic; every block carries the line numbers it comes from.
  `GotoLang.v` is an interpreter for that fragment: a Go panic (slice out of range, write to a
  nil map, index out of range) is an explicit outcome, and so is fuel exhaustion (theorems show it
  never happens with the fuel used, so it stands for non-termination).
  The leaf statements (`m.pb = m.p`, `output.hostname = string(m.text())`, ...) get their
  meaning in `M5424Def.v`, `M3164Def.v`, `BuilderBaseDef.v`, `NonTransparentBaseDef.v`; the hand-written Go
  around the automata is in `M5424.v`, `M3164.v`, `MBuilder.v`, `MNT.v`, `MOctet.v`, `Texts.v`, `Common.v`.
* **L1, structured automata** (`A5424.v`, `A3164.v`, `ABuilder.v`, `ANT.v`). A partial evaluator turns
  (state, byte) into a tree of data actions; the trees of *all* states and *all* 256 bytes are compared with
  those of a small structured automaton by a verified finite sweep (`vm_compute` lifted by `forallb_forall`).
  The input length stays unbounded: the sweep is over the finite transition table only.
* **L2, reference functions** (`Spec5424.v`, `Spec3164.v`, `SpecOctet.v`, `SpecNT.v`), recursive descent over
  byte lists; `Parse` of L0 is proved equal to them for every input and machine history (`Ref*.v`, `ROctet.v`).
* **L3, declarative specifications** (`Grammar5424.v` (with its own calendar), `Fail5424.v`, `Grammar3164.v`, `Fail3164.v`, `effect` in `ThmBuilder.v`, the stream
  relations of `SpecOctet.v`/`SpecNT.v`, the tables of `ThmTexts.v`): what the theorems are stated with. They do not mention L0-L2
  except the types of the results.
* **Theorems**: `Thm5424.v`, `Best5424.v`, `ThmFail5424.v`, `Viable5424.v`, `Thm3164.v`, `ThmFail3164.v`, `Viable3164.v`, `ThmBuilder.v`, `BConc.v`, `ThmOctet.v`, `ThmNT.v`, `Conc.v`,
  `ThmConc5424.v`, `ThmConc3164.v`, `ThmTexts.v`. Beside each theorem an `Example` gives a concrete case that meets its
  hypotheses. MANIFEST.json maps properties to theorem names.

Naming: `_refuted` theorems are machine-checked counterexamples to the claim one would naively make;
the property list then states the exact true behaviour. There are no `_partial` theorems at present.

## Per property: model and proof

| id | modelled | proved by |
|----|-------|-------|
| C01, C26 | L0 interpreter with panic and fuel outcomes | L0 = L2 for every input and every machine state |
| C02, C03, C27, C29 | L0 + declarative grammar | inversion of L2 in both directions; unambiguity of the grammar |
| C04-C06, C08, C10, C34, C35 | L0 | corollaries of L0 = L2 (which does not mention the history) and of the grammar |
| C07 | L0, best effort | L2 stage by stage over any list of completed header words |
| C09 | error column and locality | every L2 stage looks only at bytes up to the error column (`Loc5424.v`) |
| C11-C13 | both message modes | grammar; UTF-8 as encodings of scalar values (`Utf8.v`), not as an automaton |
| C14, C15 | structured data | escaping function vs unescaping of L2; induction over the elements |
| C16 | N goroutines, shared machine memory, mutex; one leaf statement per step | invariant on the lock owner; completion by running the owner first |
| C17, C18, C23 | builder automaton (L0) per entry point | L0 = L2 per entry point, then grammar |
| C19-C22, C25 | `Valid`, `String`, `EscapeBytes`, map iteration in any order (a permutation parameter) | printer output is in the grammar of C02 |
| C24 | N goroutines over the package variables; one call of `set` per step | invariant on the goroutine inside SetParameter; counterexample schedules |
| C28 | strict RFC3164 results | exact characterisation of (nil, nil) |
| C30 | TAG[PID]: TEXT | grammar; counterexample for ']' in TEXT |
| C31, C32 | `time` model, proleptic Gregorian calendar (`Cal.v`) | calendar arithmetic |
| C33 | two configurations | grammar |
| C36-C43 | scanner, parser loop, `bufio.Reader` | refinement of bufio to a flat sequence of bytes and errors (`Bufio.v`, `ROctet.v`), then induction on frames |
| C44-C47, C53 | framing automaton (L0), callbacks, driver with an open policy | induction on windows and streams, for every policy |
| C48-C52 | plain functions | direct |
| C54, C55 | declarative relation of all rejections (`Fail5424.v`), written without L0-L2 | L2 = relation in both directions, stage by stage; completions constructed case by case |
| C56, C57 | the same for RFC 3164 (`Fail3164.v`), including the rejections that report no error | as C54, C55; the broken-off timestamp through the last-prefix predicate `stuck` |
| C58 | the error of every malformed octet-counting form (`malformed` in `SpecOctet.v`) | the relation `outcome` is shown functional by executing it on the model: soundness (C42) and completeness |
| C59 | `Fmt.v` (Sprintf/Errorf), `ErrText.v` (every wording, token names, `time.ParseError`) | texts are cut uniquely from the end; the causes of `time.Parse` errors from the list of C54/C56 |
| C60, C61 | `MApi.v`: the four constructors, all machine options, year operators (the clock is a parameter of every application), any sequence of calls; `SpecApi.v` | invariant relating the machine to the options in force; `Err5424.v`, `Err3164.v`: no path of the automaton reaches an accepting state after an error action (check of every transition) |
| C62, C63, C64 | `Heap.v` (addresses, variables, arrays, slices with capacity, maps as objects), `HBuilder.v`, `HParse5424.v`, `HParse3164.v`: the builder, `Parse` of both formats (the same goto programs of `Gen5424.v`, `Gen3164.v` with leaf statements that act on memory), `export` and `RemoveBytes` over that memory; `MWorld.v`, `MCopy.v`: arbitrary programs of operations; specifications `SpecHeap.v` (what is seen through pointers, reachability), `SpecWorld.v`, `SpecCopy.v` on values only | ownership invariant (`HOwn.v`): every address a message uses belongs to it; each statement of the goto program simulates the statement on values (`HExec.v`), each operation preserves the invariant |
| C65, C66 | no new code: the composition of `String`, the transports and `Parse`; `SpecTransport.v` says what is sent | C20/C21 with C36 and C44; which printed texts contain trailer and '<' is decided character by character through `EscapeBytes` |
| C67, C68 | when results are handed to the listener | C67 (MOctetLog, ThmPrompt): the octet counting parser recorded together with the reads still to be made at each emission; `emissions_results` ties the record to the results of the plain model, `octet_prompt` says the results of all frames already received are out before the next read. C68 (ThmLag): the non-transparent parser between two reads has emitted all but the latest complete message. |
| C69 | `NewScanner`'s `maxLength+20` with 64-bit wrap-around; bufio's minimum of 16 | the refinement of the octet counting parser is proved for every buffer size (`crun`, ROctet.v); for maxima below 2^63-20 the size drops out (`crun_id`), above that `huge_run` computes the result |
| C70 | `MOctetBuf.v`: NewReaderSize handing back a *bufio.Reader that is large enough | induction over the frames with the state of the reader (`at_start`), on the same refinement; the failure for other readers is shown by a witness |
| C71 | number of statements, tests and jumps executed by the four goto programs (Steps.v: a relation `steps` without fuel, next to GotoLang.exec) | the fuel of the simulation theorem (14 per byte) bounds the blocks entered, the longest path of any block (computed once per program by the kernel) bounds the statements per block; the relation is deterministic, so the bound holds of the one execution |
| C72 | memory model of the octet counting parser: `bufio.Reader` with its array, the copies of `fill`, the byte `UnreadByte` writes back, readers that scribble (HBufio.v); scanner, parser and listener scripts over the heap of C62 (MOctetMem.v); value side: SpecDeliver.v and MOctet.v | simulation: `buf[r:w]` is the byte string of Bufio.v; the invariant of C62 with the parser's array as one more unowned buffer; a token literal is read before the array changes; the listener's operations are those of C62 shifted by one buffer |
| C73 | memory model of the non-transparent framing parser (MNtMem.v): candidate with length and capacity, `append` in place or into a new array with any extra capacity, windows placed anywhere in arrays the library overwrites, `lastChunk` a slice of them, listener scripts; value side: MNT.v, SpecDeliverNT.v. Assumed of the library: arrays of its own for each stream, the chunk given to OnErr is not written again | the invariant of C62 with three more buffers (library array, candidate array, chunk); leaf statements of Exec related by HExec.exec_rel; a statement that finds the window changed is a panic in the model, so "no panic" includes "the window does not change during Exec" |
| C74 | the four existing models (Parse of both formats, both stream parsers); no new code | ThmConfuse: both languages are known exactly (C01, C26); after PRI one needs a version and a space, the other a month name or four digits; framings from the exact outcome theorems C58 and C45/C53 |
| C75 | `Zone.v`: Location.lookup (period with start and end), tables of transitions, the two ways time.Date of Go releases resolves a reading | ThmZone: case analysis on the period of the reading; a skipped reading is proved to be one no instant shows; the year-0 reading of ParseInLocation comes back unchanged because it lies before the first transition |
| C76 | `MTesting.v`: RandomBytes over an arbitrary source, RightPad, YearTime, the exported maxima; not StringAddress, Uint8Address, TimeParse (address of an argument, call of time.Parse) | ThmTesting: the loop reads the source as a sequence of 6-bit groups (invariant on cache, remain and the number of draws); the maximum message by C01 and C36/C38 |
| C77 | the record of C67 | the invariant of C67 (buffer and unread part make up what follows the frame) with the buffer never longer than its size |
| C78 | MOctetCrash.v, MNtCrash.v: run and Exec/OnCompletion with a record of the parser at every call of the listener (and of the scanner, which reads); a panic leaves the parser as recorded, with any scanner | the invariant of C39 (configuration, stepback false) holds at every recorded point; non-transparent: the candidate at each call is the message being handed over, then nt_stream |
| C79 | MOctet32.v: MOctet.v and dec_to_int with the conversions to int in 32 bits | lockstep of the two programs: as long as every length is below 2^31 the conversions agree; a larger one makes the 64-bit program end with a result outside the hypothesis; totality, reuse and independence of the reads by the refinement of ROctet.v redone with 32 bits (ROctet32.v) |
| C80 | BStmt.v: goroutines step through the goto program of set (GenBuilder.v) one leaf statement, test or jump at a time, the package variables are read when a statement reads them, SetParameter's own statements are steps. | Invariant: what is left of the current call leads to the message the call gives alone; statements that read a package variable are shown unreachable for the other setters (on the automaton of ABuilder.v), so changes by others commute with the rest of the run (ThmBStmt.v). Two schedules found by computation refute the claim without exclusion. |
| C81 | MLater.v: options applied to a stream parser that NewParser has returned, between streams; the inner rfc5424 machine keeps the mode it was created with. | Octet counting: an invariant over the history (own best effort, inner best effort, maximum), then the exact results of C58 with the message dropped from a result whose message was bad iff best effort came late. Non-transparent: the parser differs from a fresh one only in the best effort flag, which the stream does not read, and in what C53 says earlier streams leave (ThmLater.v, ThmNtLater.v). |
| C82 | MReenter.v, MNtReenter.v: MOctet.run and MNT with a listener that acts on the parser in each of its calls (options, nested Parse). What it does is a script, one entry for each call in the order of the calls; the theorems range over all scripts. | Totality: induction on a fuel that bounds frames of all streams (octet) or the depth of calls (non-transparent), with an invariant of the parser. Exact results: the outer run is simulated up to the call, the nested one is a run of a parser like new; for octet counting the outer loop goes on with the scanner of the nested stream; for non-transparent framing the pending candidate is processed a second time. The natural readings are refuted by closed counterexamples. |
| C83 | The models of C82, with listeners that only apply options. | Octet counting: a function over the frames (listened) says what is reported; induction over the frames with an invariant of the parser standing at the start of a frame, in which the best effort flag, the mode of the inner machine and the maximum are independent of each other and the buffer size is that of the start. Non-transparent: a simulation (only the best effort flag differs) for all options but WithTrailer; for WithTrailer, the automaton stays in its inner state for all remaining windows. |
| C84 | The model of rfc3164 (M3164) and the relations of Grammar3164 and Fail3164; no new model. | Best3164.v: the header from the specification function and the invariant that the message part leaves the header fields alone; the tag and the process id by constructing the derivation in the grammar or in the relation of rejections, one of which exists for every continuation; the converse by cases on those two relations, which by C27 and C56 describe every returned message. |
| C85 | MOctetCost.v: the functions of Bufio.v and MOctet.v once more, each adding what it costs and recording the calls of the RFC 5424 machine (octet_work_results: forgetting the costs gives the functions of MOctet.v); the steps of the machine are those of C71. | ThmOctetCost.v: potential method: a potential of the unread bytes of the buffer and of the reader, larger for the latter; one lemma for each function (its cost plus the potential afterwards is at most the potential before plus a constant); a frame pays for its constants by its space, for the move of the buffer and the parse of the message by the bytes it discards. That the recorded calls are the calls made: ThmStreamCopy.stream_calls_made. |
| C86 | MNtCost.v: process, Exec, OnErr, OnEOF, OnCompletion and the driver of MNT.v once more, each adding what it costs and recording the calls of Exec and of the RFC 5424 machine (nt_work_results: forgetting the costs gives the functions of MNT.v); the steps of the machines are those of C71. | ThmNtCost.v: potential method: every byte of the candidate carries the price of being parsed; a window adds its bytes to the candidate at most once because the trailer is its last byte (run_fine), a parse at the start of a message resets the candidate. nt_work_linear: the sum over everything is at most 26581 * (bytes of this and of the earlier streams + 1), for all executions of the calls. That the recorded calls are the calls made: ThmNtCopy.nt_calls_made. |
| C87 | MTextCost.v: the program of M5424 with two counters: bytes taken as text, bytes moved by RemoveBytes (copy_results: forgetting them gives M5424.parse). | ThmTextCost.v: a table of what is known in each state of the automaton (how often text was taken since pb was set, whether a value was un-escaped, how many backslashes are recorded), checked for every state and byte by computation and shown to be an invariant (act_inv, texec_good): each byte is taken at most three times between two settings of pb, plus once by the cut message. Without a backslash: a second check (check2). The lower bound: the automaton run on the known prefix and, by induction, on k escapes (escapes_run), and the sum of the moves (escapes_moves). |
| C88 | MTextCost3164.v: the program of M3164 with two counters: bytes taken as the content, bytes taken as any other text (copy3164_results: forgetting them gives M3164.parse). | ThmTextCost3164.v: as C87: a table of how often text was taken since pb was set, checked for every state and byte and shown to be an invariant (act_inv, texec_good); the content is taken at most once at each byte, so at most 1 + ... + n bytes. Without a ]: a second check (check2). The lower bound: the automaton run on the known prefix, for symbolic options, and by induction on n brackets (brackets_run). |
| C89 | MStringCost.v: EscapeBytes and String of MBuilder with a counter: the bytes that string concatenations (nothing when one side is empty) and Sprintf write (string_results: forgetting it gives MBuilder.to_string). | ThmStringCost.v: invariants cost <= size^2 (sq, EscapeBytes) and cost <= size * (2 size + 1) (sq2, the loops over elements and parameters), by induction on values and lists; the lower bound by induction on an ASCII value (c_escape_loop_low) and monotonicity of the cost along the loops, for every iteration order of the maps. |
| C90 | MSetCost.v: set and the calls of MBuilder with two counters: bytes of the argument copied or taken as text, bytes moved by RemoveBytes (set_results: forgetting them gives MBuilder.step). | ThmSetCost.v: as C87, simpler because text is only taken at the end of the argument: what a statement may do is checked for every state, entry and byte (check) and shown to be an invariant (act_inv, texec_good); only the automaton of values records backslashes (w_bset_word), and only at a backslash (check2). The lower bound by induction on n escapes (escapes_run, escapes_strip, ThmTextCost.escapes_moves). |
| C91 | MOctetCost.w_stream, which records the calls of the machine, with MTextCost.copies of each call. | ThmStreamCopy.v: no cost of w_stream is negative and the scanner calls nothing (nn), so that the potential of C85 bounds the number of calls and of bytes given to the machine (stream_wn); every call is bounded by C87; without best effort no input is longer than the maximum length, since only the frame that was announced is parsed (scan_facts, run_good). That the recorded calls are the ones made is a theorem too (stream_calls_made: each result comes from one of them, in order, on the one machine of the parser, and at most one more result has no call and no message). |
| C92 | MNtCost.w_nparse_stream, which records the calls of Parse, with MTextCost.copies of each call. | ThmNtCopy.v: no cost is negative (nn_stream, by induction on the statements of Exec and on the windows), so that the potential of C86 bounds the calls of Parse and their bytes (wt_parses); every call is bounded by C87 (ThmStreamCopy.texts_bound, moves_bound_by). nt_calls_made: the results are what the recorded calls answered, in order, on the one machine. |

## Modelled external code, simplifications

* `time.Parse`/`time.Date`/`In`/`Format` for the layouts used, on texts of the shape the grammars admit.
  A `time.Time` is civil date, clock, nanoseconds and zone offset; zone names and monotonic clocks are not
  modelled. A `*time.Location` is a function from UTC seconds to an offset (`Cal.v`); for `WithLocaleTimezone`
  the theorems of C32 speak of fixed offsets, those of C75 of locations with transitions (`Zone.v`).
* Go maps: association lists sorted by key (canonical, so equality of maps is equality of lists). The iteration order
  of `range` is a parameter (any permutation).
* Go `int` is Z. It cannot overflow in the modelled code except in the length of an octet-counting frame, where the wrap-around of
  `strconv.ParseUint`/`int` conversion is modelled, and in `maxMessageLength + 20`, where it is modelled too (64-bit `int`; 32-bit `int`: C79 only).
* `bufio.Reader` (NewReaderSize, ReadByte, UnreadByte, Peek, Discard) over an arbitrary finite sequence of `Read`
  results (data, errors, both, or neither), then io.EOF for ever.
* `leodido/ragel-machinery` (not in the repository): `ArbitraryReader` delivers windows that end
  with the trailer; at the end of the stream a nonempty rest is passed to `OnErr`; `OnCompletion`
  runs last. What it does after the automaton reports an error, whether a clean end is reported as an error and
  whether the rest is run through `Exec` are fields of a policy record: the theorems hold for every policy.
* A listener is represented by the list of the results it receives (it does not call back into the parser), except in the models of C82, where it may.
* `sync.Mutex`: a lock that at most one goroutine holds. Memory is sequentially consistent. Granularity of the
  interleavings: C16 one leaf statement, test or jump of the goto program (the initial assignments of `Parse` are one step);
  C24 one call of `set` (the automaton works on the message of its own goroutine; only the two package variables are shared); C80 repeats it with one leaf statement, test or jump of `set` per step.
* `strings.ToUpper` on ASCII letters (argument in `MNT.v`); `sort.Strings` as insertion sort.
* Error values are kind and column in the parser models; their texts are modelled in `ErrText.v` with the initial value of the exported variable `ColumnPositionTemplate`. `fmt` is modelled for `%d` and `%s` only.

Not modelled: the `.rl` sources and `docs/` (the generated Go is what runs),
allocation failures, stack exhaustion, the field `m.data` between two calls of `Parse` (assigned at the beginning of each, never read before).
In the memory model strings are values (Go never changes their bytes; `string(b)` copies), a new array made by `append` has no spare
capacity, the literals of WS, ILLEGAL and MSGLEN tokens (arrays of their own, never written again) are values, the `syslog.Result` structs are values, and the bytes the control flow of `Parse` tests are those of the input when `Parse` is called (no goroutine writes the buffer meanwhile).

## Trusted base

* Coq 8.16.1: kernel including its `vm_compute` reduction machine. No `native_compute`, no plugins beyond the standard distribution.
* The translation `tools/ragel2coq.py` and the reading of Go that `GotoLang.v` and the `*Def.v` files express: that they describe
  what the Go compiler produces is not proved.
* The hand-written models listed above, each definition citing its Go lines.
* `Print Assumptions` for every theorem named in MANIFEST.json: "Closed under the global context" (no axiom at all). A library-wide
  listing (`coqchk -o`) additionally shows the seven declared constants `Coq.ssr.ssrunder.Under_rel.*` of Coq's own
  `ssrunder` (opaque module of the standard distribution, loaded through `Lia`/`ssreflect` support files); no theorem uses them.
* No axioms, `Admitted`, functors, module types or switched-off checks in `theories/`.
