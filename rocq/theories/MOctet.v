(* octetcounting/scanner.go, tokens.go, parser.go: the octet counting transport (RFC 5425, RFC 6587). *)
From Verif Require Import Bytes Common M5424Def M5424 MBuilder Bufio.
Local Open Scope Z_scope.

(* octetcounting/tokens.go:8-23 *)
Inductive toktype := ILLEGAL | EOF | WS | MSGLEN | SYSLOGMSG.
Record token := Token { typ : toktype; tlit : bytes }.
Definition is_typ (t : toktype) (k : token) : bool :=
  match t, typ k with ILLEGAL, ILLEGAL | EOF, EOF | WS, WS | MSGLEN, MSGLEN | SYSLOGMSG, SYSLOGMSG => true | _, _ => false end.
(* the texts of tokens and errors (tokens.go:26-45) are in ErrText.v *)

(* octetcounting/scanner.go:20-27: the bounds are those of the code ('/' counts as a digit, '0' as a non-zero digit) *)
Definition is_digit (b : byte) : bool := ((47 <=? bN b) && (bN b <=? 57))%N.
Definition is_nonzero_digit (b : byte) : bool := ((48 <=? bN b) && (bN b <=? 57))%N.

(* strconv.ParseUint(s, 10, 64) with its error dropped (octetcounting/scanner.go:114): 0 for a character that is not a
   digit, the largest uint64 on overflow, whichever is met first *)
Fixpoint parse_uint_loop (n : Z) (s : bytes) : Z :=
  match s with
  | [] => n
  | b :: r => if ((48 <=? bN b) && (bN b <=? 57))%N then
                if 2 ^ 64 / 10 + 1 <=? n then 2 ^ 64 - 1
                else let n1 := n * 10 + (Z.of_N (bN b) - 48) in
                     if 2 ^ 64 <=? n1 then 2 ^ 64 - 1 else parse_uint_loop n1 r
              else 0
  end.
Definition parse_uint (s : bytes) : Z := match s with [] => 0 | _ => parse_uint_loop 0 s end.
(* int(x) of a uint64 x *)
Definition to_int (x : Z) : Z := if x <? 2 ^ 63 then x else x - 2 ^ 64.
(* a + b of two Go ints (64 bits): the result wraps around *)
Definition add_int (a b : Z) : Z := to_int ((a + b) mod 2 ^ 64).

(* octetcounting/scanner.go:30-34 Scanner *)
Record scanner := Scanner { s_r : bufio; s_msglen : Z; s_ready : bool }.
(* octetcounting/scanner.go:37-41 NewScanner; maxLength+20 wraps around *)
Definition new_scanner (rd : reader) (max : Z) : scanner := Scanner (new_reader_size rd (add_int max 20)) 0 false.

(* octetcounting/scanner.go:45-51 read: byte(0) for an error *)
Definition sread (b : bufio) : option (byte * bufio) :=
  match read_byte b with Some (Some c, b') => Some (c, b') | Some (None, b') => Some (x00, b') | None => None end.

(* octetcounting/scanner.go:102-111 the loop of scanMsgLen; the fuel bounds the number of digits *)
Fixpoint digits_loop (fuel : nat) (b : bufio) (buf : bytes) : option (bytes * bufio) :=
  match fuel with
  | O => None
  | S f => match sread b with
           | None => None
           | Some (c, b') => if beqb c x00 then Some (buf, b')
                             else if negb (is_digit c) then Some (buf, unread_byte b')
                             else digits_loop f b' (buf ++ [c])
           end
  end.
(* octetcounting/scanner.go:95-120 scanMsgLen *)
Definition scan_msg_len (s : scanner) : option (token * scanner) :=
  match sread (s_r s) with
  | None => None
  | Some (c, b) => match digits_loop (S (left b)) b [c] with
                   | None => None
                   | Some (buf, b') => Some (Token MSGLEN buf, Scanner b' (parse_uint buf) (s_ready s)) end
  end.
(* octetcounting/scanner.go:122-144 scanSyslogMsg.  The literal is a slice of the buffer; it is used before the buffer changes. *)
Definition scan_syslog_msg (s : scanner) : option (token * scanner) :=
  let n := to_int (s_msglen s) in
  match peek n (s_r s) with
  | None => None
  | Some (l, true, b) => match discard n b with Some b' => Some (Token SYSLOGMSG l, Scanner b' 0 false) | None => None end
  | Some (l, false, b) => Some (Token EOF l, Scanner b (s_msglen s) (s_ready s))
  end.
(* octetcounting/scanner.go:59-93 Scan *)
Definition scan (s : scanner) : option (token * scanner) :=
  match sread (s_r s) with
  | None => None
  | Some (c, b) =>
    if is_nonzero_digit c then scan_msg_len (Scanner (unread_byte b) (s_msglen s) false)
    else if beqb c x00 then Some (Token EOF [], Scanner b (s_msglen s) false)
    else if beqb c " " then Some (Token WS [" "%byte], Scanner b (s_msglen s) true)
    else if beqb c "<" && (0 <? s_msglen s) && s_ready s then scan_syslog_msg (Scanner (unread_byte b) (s_msglen s) (s_ready s))
    else Some (Token ILLEGAL [c], Scanner b (s_msglen s) (s_ready s))
  end.

(* the errors emitted by octetcounting/parser.go:82-131 *)
Inductive oerr :=
| EFound (t : token) (e : toktype)             (* "found %s, expecting a %s" *)
| ETooLong (n max : Z)                         (* "message too long to parse. was size %d, max length %d" *)
| EAfter (t : token) (n : Z)                   (* `found %s after "%s", expecting a %s containing %d octets` *)
| EMachine (e : perr).                         (* the error of the RFC 5424 machine *)
Record result := Result { r_msg : option message; r_err : option oerr }.

(* octetcounting/parser.go:14-23 parser; emit is the list of results, p_msglen (never used) is omitted *)
Record oparser := OParser { p_max : Z; p_s : scanner; p_internal : machine; p_last : token; p_stepback : bool; p_best : bool }.
Definition set_p_s (s : scanner) (t : token) (p : oparser) := OParser (p_max p) s (p_internal p) t (p_stepback p) (p_best p).
Definition set_p_stepback (b : bool) (p : oparser) := OParser (p_max p) (p_s p) (p_internal p) (p_last p) b (p_best p).
Definition set_p_internal (m : machine) (p : oparser) := OParser (p_max p) (p_s p) m (p_last p) (p_stepback p) (p_best p).

(* the generic options, /repo/options.go:4-28, and the methods they call, octetcounting/parser.go:46-48,58-60,65-67.
   The listener is not represented: what it receives is the list of results. *)
Inductive popt := OListener | OBestEffort | OMaxLength (n : Z).
Definition apply_opt (p : oparser) (o : popt) : oparser :=
  match o with
  | OListener => p
  | OBestEffort => OParser (p_max p) (p_s p) (p_internal p) (p_last p) (p_stepback p) true
  | OMaxLength n => OParser n (p_s p) (p_internal p) (p_last p) (p_stepback p) (p_best p)
  end.
(* octetcounting/parser.go:26-44 NewParser *)
Definition new_parser (opts : list popt) : oparser :=
  let p := fold_left apply_opt opts (OParser 8192 (Scanner (Bufio [] 0 None None 0 []) 0 false) (new_machine false false) (Token ILLEGAL []) false false) in
  set_p_internal (new_machine (p_best p) false) p.
(* octetcounting/parser.go:51-53 HasBestEffort *)
Definition has_best_effort (p : oparser) : bool := p_best p.

(* octetcounting/parser.go:154-173 scan, unscan *)
Definition pscan (p : oparser) : option (token * oparser) :=
  if p_stepback p then Some (p_last p, set_p_stepback false p)
  else match scan (p_s p) with Some (t, s) => Some (t, set_p_s s t p) | None => None end.
(* octetcounting/parser.go:143-150 parse; None: panic of the machine *)
Definition pparse (p : oparser) (input : bytes) : option (result * oparser) :=
  match parse (p_internal p) input with
  | (m, Ret r e) => Some (Result r (option_map EMachine e), set_p_internal m p)
  | _ => None
  end.

(* octetcounting/parser.go:77-141 run: the emitted results and the parser afterwards; None: panic or fuel exhausted.
   run_body is one iteration after its first scan. *)
Definition run_body (rec : oparser -> option (list result * oparser)) (tok : token) (p : oparser) : option (list result * oparser) :=
  if negb (is_typ MSGLEN tok) then Some ([Result None (Some (EFound tok MSGLEN))], p)
  else if p_max p <? to_int (s_msglen (p_s p)) then Some ([Result None (Some (ETooLong (s_msglen (p_s p)) (p_max p)))], p)
  else
    match pscan p with
    | None => None
    | Some (tok, p) =>
      if negb (is_typ WS tok) then Some ([Result None (Some (EFound tok WS))], p)
      else
        match pscan p with
        | None => None
        | Some (tok, p) =>
          if negb (is_typ SYSLOGMSG tok) then
            let e := EAfter tok (s_msglen (p_s p)) in
            if (Z.of_nat (length (tlit tok)) <? to_int (s_msglen (p_s p))) && p_best p then
              match pparse p (tlit tok) with
              | Some (Result m re, p') => Some ([Result m (match re with None => Some e | Some _ => re end)], p')
              | None => None end
            else Some ([Result None (Some e)], p)
          else
            match pparse p (tlit tok) with
            | None => None
            | Some (res, p) =>
              if negb (p_best p) && match r_err res with Some _ => true | None => false end then Some ([Result None (r_err res)], p)
              else
                match pscan p with
                | None => None
                | Some (tok, p) =>
                  if is_typ EOF tok then Some ([res], p)
                  else match rec (set_p_stepback true p) with
                       | Some (rs, p') => Some (res :: rs, p')
                       | None => None end
                end
            end
        end
    end.
Fixpoint run (fuel : nat) (p : oparser) : option (list result * oparser) :=
  match fuel with
  | O => None
  | S f => match pscan p with None => None | Some (tok, p) => run_body (run f) tok p end
  end.

(* octetcounting/parser.go:72-75 Parse.  The fuel bounds the number of frames. *)
Definition parse_stream (p : oparser) (rd : reader) : option (list result * oparser) :=
  run (S (rd_size rd)) (OParser (p_max p) (new_scanner rd (p_max p)) (p_internal p) (p_last p) (p_stepback p) (p_best p)).

Definition results (r : option (list result * oparser)) : option (list result) := match r with Some (rs, _) => Some rs | None => None end.

Example octet_ex1 : results (parse_stream (new_parser []) [(lit "16 <1>1 - - - ", None); (lit "- - -16 <2>1 - - - - - -", None)])
  = Some [Result (Some (Message (Some 0) (Some 1) (Some 1) None None None None None None 1 None)) None;
          Result (Some (Message (Some 0) (Some 2) (Some 2) None None None None None None 1 None)) None].
Proof. vm_compute. reflexivity. Qed.
Example octet_ex2 : results (parse_stream (new_parser [OMaxLength 20; OListener; OBestEffort]) [(lit "16 <1>1 - - - - - -21 <2>1 - - - - - -", None)])
  = Some [Result (Some (Message (Some 0) (Some 1) (Some 1) None None None None None None 1 None)) None; Result None (Some (ETooLong 21 20))].
Proof. vm_compute. reflexivity. Qed.
