(* C59: the texts of the errors. *)
From Verif Require Import Bytes CommonFacts GoMap GoTime Common M5424Def M5424 MBuilder Fmt.
From Verif Require Import Bufio MOctet.
From Verif Require M3164Def M3164.
Local Open Scope Z_scope.

(* ---------- model ---------- *)
(* Go: time.ParseError.Error, when Message is ": day out of range" (quoting changes none of the bytes concerned, see
   parse_error_printable).  The other errors of time.Parse do not occur: parse_time_error, parse3164_time_error. *)
Definition time_error_text (value : bytes) : bytes := lit "parsing time """ ++ value ++ lit """: day out of range".

(* rfc5424/machine.go:12 ColumnPositionTemplate (an exported variable; this is its initial value) *)
Definition column_template : bytes := lit " [col %d]".
(* rfc5424/machine.go:14-47 *)
Definition err_msg : bytes := lit "expecting a free-form optional message in UTF-8 (starting with or without BOM)".
Definition kind_text (k : ekind) : bytes :=
  match k with
  | EPrival => lit "expecting a priority value in the range 1-191 or equal to 0"
  | EPri => lit "expecting a priority value within angle brackets"
  | EVersion => lit "expecting a version value in the range 1-999"
  | ETimestamp => lit "expecting a RFC3339MICRO timestamp or a nil value"
  | EHostname => lit "expecting an hostname (from 1 to max 255 US-ASCII characters) or a nil value"
  | EAppname => lit "expecting an app-name (from 1 to max 48 US-ASCII characters) or a nil value"
  | EProcID => lit "expecting a procid (from 1 to max 128 US-ASCII characters) or a nil value"
  | EMsgID => lit "expecting a msgid (from 1 to max 32 US-ASCII characters) or a nil value"
  | EStructuredData => lit "expecting a structured data section containing one or more elements (`[id( key=""value"")*]+`) or a nil value"
  | ESdID => lit "expecting a structured data element id (from 1 to max 32 US-ASCII characters; except `=`, ` `, `]`, and `""`"
  | ESdIDDuplicated => lit "duplicate structured data element id"
  | ESdParam => lit "expecting a structured data parameter (`key=""value""`, both part from 1 to max 32 US-ASCII characters; key cannot contain `=`, ` `, `]`, and `""`, while value cannot contain `]`, backslash, and `""` unless escaped)"
  | EMsg => err_msg
  | EMsgNotCompliant => err_msg ++ lit " or a free-form optional message in any encoding (starting without BOM)"
  | EEscape => lit "expecting chars `]`, `""`, and `\` to be escaped within param value"
  | EParse => lit "parsing error"
  end.
(* m.err = fmt.Errorf(k+ColumnPositionTemplate, m.p) and m.err = fmt.Errorf("%s [col %d]", e, m.p) throughout rfc5424/machine.go *)
Definition perr_text (e : perr) : bytes :=
  match e with
  | PErr k c => sprintf (kind_text k ++ column_template) [FInt c]
  | PTime v c => sprintf (lit "%s [col %d]") [FStr (time_error_text v); FInt c]
  end.

(* rfc3164/machine.go:11-21 *)
Definition kind_text3164 (k : M3164Def.ekind) : bytes :=
  match k with
  | M3164Def.EPrival => lit "expecting a priority value in the range 1-191 or equal to 0 [col %d]"
  | M3164Def.EPri => lit "expecting a priority value within angle brackets [col %d]"
  | M3164Def.ETimestamp => lit "expecting a Stamp timestamp [col %d]"
  | M3164Def.ERFC3339 => lit "expecting a Stamp or a RFC3339 timestamp [col %d]"
  | M3164Def.EHostname => lit "expecting an hostname (from 1 to max 255 US-ASCII characters) [col %d]"
  | M3164Def.ETag => lit "expecting an alphanumeric tag (max 32 characters) [col %d]"
  end.
(* m.err = fmt.Errorf(k, m.p) and m.err = fmt.Errorf("%s [col %d]", e, m.p) throughout rfc3164/machine.go *)
Definition perr_text3164 (e : M3164Def.perr) : bytes :=
  match e with
  | M3164Def.PErr k c => sprintf (kind_text3164 k) [FInt c]
  | M3164Def.PTime v c => sprintf (lit "%s [col %d]") [FStr (time_error_text v); FInt c]
  end.

(* octetcounting/tokens.go:35-45: String of a TokenType, cut out of one constant; the types are numbered in the order of
   their declaration, tokens.go:16-22 *)
Definition typ_number (t : toktype) : nat := match t with ILLEGAL => 0 | EOF => 1 | WS => 2 | MSGLEN => 3 | SYSLOGMSG => 4 end.
Definition typ_name : bytes := lit "ILLEGALEOFWSMSGLENSYSLOGMSG".
Definition typ_index : list nat := [0; 7; 10; 12; 18; 27]%nat.
Definition typ_text (t : toktype) : bytes :=
  let i := typ_number t in let a := nth i typ_index 0%nat in let b := nth (S i) typ_index 0%nat in firstn (b - a) (skipn a typ_name).
(* octetcounting/tokens.go:26-33: String of a Token *)
Definition token_text (t : token) : bytes :=
  match typ t with WS | EOF => typ_text (typ t) | _ => typ_text (typ t) ++ lit "(" ++ tlit t ++ lit ")" end.
(* octetcounting/parser.go:84,91,99,106 *)
Definition oerr_text (e : oerr) : bytes :=
  match e with
  | EFound t k => sprintf (lit "found %s, expecting a %s") [FStr (token_text t); FStr (typ_text k)]
  | ETooLong n max => sprintf (lit "message too long to parse. was size %d, max length %d") [FInt n; FInt max]
  | EAfter t n => sprintf (lit "found %s after ""%s"", expecting a %s containing %d octets") [FStr (token_text t); FStr (tlit t); FStr (typ_text SYSLOGMSG); FInt n]
  | EMachine e => perr_text e
  end.
Example typ_texts : map typ_text [ILLEGAL; EOF; WS; MSGLEN; SYSLOGMSG] = [lit "ILLEGAL"; lit "EOF"; lit "WS"; lit "MSGLEN"; lit "SYSLOGMSG"].
Proof. vm_compute. reflexivity. Qed.
