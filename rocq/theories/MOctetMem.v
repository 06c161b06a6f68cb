(* octetcounting/scanner.go and parser.go in memory: the scanner's buffer is one array that is overwritten again and again, a SYSLOGMSG
   token is a slice of that array, messages are reached through pointers, and the listener may do between two results whatever a program
   can do with the messages it was given and with its own machines and buffers. *)
From Verif Require Import Bytes GoMap GoTime Common M5424Def M5424 BuilderBaseDef MBuilder Bufio HBufio MOctet Heap HBuilder HParse5424 SpecHeap SpecWorld MWorld SpecDeliver.
Local Open Scope Z_scope.

(* bufio.Reader: buf (a slice of an array of its own), r, w, lastByte, err, rd *)
Record hbufio := HB { hb_buf : slice; hb_r : nat; hb_w : nat; hb_last : option byte; hb_err : option rerr; hb_rd : mreader }.
Definition loadb (h : heap) (b : hbufio) : option abufio :=
  match hget h (s_arr (hb_buf b)) with Some (KArr a) => Some (AB a (hb_r b) (hb_w b) (hb_last b) (hb_err b) (hb_rd b)) | _ => None end.
Definition storeb (h : heap) (b : hbufio) (x : abufio) : heap * hbufio :=
  (hput h (s_arr (hb_buf b)) (KArr (a_arr x)), HB (hb_buf b) (a_r x) (a_w x) (a_last x) (a_err x) (a_rd x)).
(* the methods of bufio.Reader (HBufio.v) on the array in memory *)
Definition h_unread (h : heap) (b : hbufio) : option (heap * hbufio) :=
  match loadb h b with Some x => Some (storeb h b (a_unread_byte x)) | None => None end.
Definition h_discard (n : Z) (h : heap) (b : hbufio) : option (heap * hbufio) :=
  match loadb h b with Some x => match a_discard n x with Some x' => Some (storeb h b x') | None => None end | None => None end.
Definition h_peek (n : Z) (h : heap) (b : hbufio) : option (option slice * bool * heap * hbufio) :=
  match loadb h b with
  | Some x => match a_peek n x with
              | Some (o, ok, x') =>
                  let (h', b') := storeb h b x' in
                  Some (match o with Some k => Some (Slice (s_arr (hb_buf b)) (s_off (hb_buf b) + a_r x') k (s_cap (hb_buf b) - a_r x')) | None => None end, ok, h', b')
              | None => None end
  | None => None end.
(* bufio.NewReaderSize: make([]byte, max(size, 16)); the array is new and zero *)
Definition h_new_reader_size (h : heap) (rd : mreader) (size : Z) : heap * hbufio :=
  let n := Z.to_nat (Z.max size 16) in
  let (h', a) := alloc h (KArr (repeat x00 n)) in (h', HB (Slice a 0 n n) 0 0 None None rd).

(* octetcounting/tokens.go:18-23 Token.  The literals of WS, ILLEGAL and MSGLEN tokens are arrays of their own that nobody writes again
   (LOwn: values); those of SYSLOGMSG tokens, and of EOF tokens met inside a message, are slices of the buffer. *)
Inductive mlit := LOwn (l : bytes) | LBuf (d : slice).
Record mtoken := MTok { mt_typ : toktype; mt_lit : mlit }.
Definition lit_now (h : heap) (l : mlit) : option bytes := match l with LOwn l => Some l | LBuf d => slice_read h d end.
(* the token as fmt.Errorf prints it now *)
Definition tok_now (h : heap) (t : mtoken) : option token := match lit_now h (mt_lit t) with Some l => Some (Token (mt_typ t) l) | None => None end.

(* octetcounting/scanner.go:30-41 Scanner, NewScanner *)
Record mscanner := MScanner { ms_r : hbufio; ms_msglen : Z; ms_ready : bool }.
Definition m_new_scanner (h : heap) (rd : mreader) (max : Z) : heap * mscanner :=
  let (h', b) := h_new_reader_size h rd (add_int max 20) in (h', MScanner b 0 false).
(* octetcounting/scanner.go:45-51 read *)
Definition m_sread (h : heap) (b : hbufio) : option (byte * heap * hbufio) :=
  match loadb h b with
  | Some x => match a_read_byte x with
              | Some (c, x') => let (h', b') := storeb h b x' in Some (match c with Some c => c | None => x00 end, h', b')
              | None => None end
  | None => None end.
(* octetcounting/scanner.go:102-111 the loop of scanMsgLen *)
Fixpoint m_digits_loop (fuel : nat) (h : heap) (b : hbufio) (buf : bytes) : option (bytes * heap * hbufio) :=
  match fuel with
  | O => None
  | S f => match m_sread h b with
           | None => None
           | Some (c, h, b') => if beqb c x00 then Some (buf, h, b')
                                else if negb (is_digit c) then match h_unread h b' with Some (h, b') => Some (buf, h, b') | None => None end
                                else m_digits_loop f h b' (buf ++ [c])
           end
  end.
(* a bound on the digits: the bytes in the buffer and in the reader *)
Definition m_left (b : hbufio) : nat := (hb_w b - hb_r b + rd_size (calm (hb_rd b)))%nat.
(* octetcounting/scanner.go:95-120 scanMsgLen *)
Definition m_scan_msg_len (h : heap) (s : mscanner) : option (mtoken * heap * mscanner) :=
  match m_sread h (ms_r s) with
  | None => None
  | Some (c, h, b) => match m_digits_loop (S (m_left b)) h b [c] with
                      | None => None
                      | Some (buf, h, b') => Some (MTok MSGLEN (LOwn buf), h, MScanner b' (parse_uint buf) (ms_ready s)) end
  end.
(* octetcounting/scanner.go:122-144 scanSyslogMsg *)
Definition m_scan_syslog_msg (h : heap) (s : mscanner) : option (mtoken * heap * mscanner) :=
  let n := to_int (ms_msglen s) in
  match h_peek n h (ms_r s) with
  | None => None
  | Some (l, ok, h, b) =>
      let l := match l with Some d => LBuf d | None => LOwn [] end in
      if ok then match h_discard n h b with Some (h, b') => Some (MTok SYSLOGMSG l, h, MScanner b' 0 false) | None => None end
      else Some (MTok EOF l, h, MScanner b (ms_msglen s) (ms_ready s))
  end.
(* octetcounting/scanner.go:59-93 Scan *)
Definition m_scan (h : heap) (s : mscanner) : option (mtoken * heap * mscanner) :=
  match m_sread h (ms_r s) with
  | None => None
  | Some (c, h, b) =>
    if is_nonzero_digit c then
      match h_unread h b with Some (h, b) => m_scan_msg_len h (MScanner b (ms_msglen s) false) | None => None end
    else if beqb c x00 then Some (MTok EOF (LOwn []), h, MScanner b (ms_msglen s) false)
    else if beqb c " " then Some (MTok WS (LOwn [" "%byte]), h, MScanner b (ms_msglen s) true)
    else if beqb c "<" && (0 <? ms_msglen s) && ms_ready s then
      match h_unread h b with Some (h, b) => m_scan_syslog_msg h (MScanner b (ms_msglen s) (ms_ready s)) | None => None end
    else Some (MTok ILLEGAL (LOwn [c]), h, MScanner b (ms_msglen s) (ms_ready s))
  end.

(* octetcounting/parser.go:14-23 parser *)
Record mparser := MParser { mp_max : Z; mp_s : mscanner; mp_internal : hmachine; mp_last : mtoken; mp_stepback : bool; mp_best : bool }.
(* octetcounting/parser.go:154-173 scan, unscan *)
Definition mp_scan (h : heap) (p : mparser) : option (mtoken * heap * mparser) :=
  if mp_stepback p then Some (mp_last p, h, MParser (mp_max p) (mp_s p) (mp_internal p) (mp_last p) false (mp_best p))
  else match m_scan h (mp_s p) with
       | Some (t, h, s) => Some (t, h, MParser (mp_max p) s (mp_internal p) t (mp_stepback p) (mp_best p))
       | None => None end.
Definition mp_unscan (p : mparser) : mparser := MParser (mp_max p) (mp_s p) (mp_internal p) (mp_last p) true (mp_best p).
(* octetcounting/parser.go:143-150 parse: the Message and the Error of the result *)
Definition mp_parse (h : heap) (p : mparser) (l : mlit) : option (option addr * option perr * heap * mparser) :=
  let (h, d) := match l with LOwn l => let (h', a) := alloc h (KArr l) in (h', Slice a 0 (length l) (length l)) | LBuf d => (h, d) end in
  match h_parse (mp_internal p) h d with
  | (m, h, HRet a e) => Some (a, e, h, MParser (mp_max p) (mp_s p) m (mp_last p) (mp_stepback p) (mp_best p))
  | _ => None
  end.

(* p.emit(&syslog.Result{Message: a, Error: e}): the listener looks at the result (what it sees then is logged), keeps the message, and
   runs its script *)
Definition with_heap (h : heap) (s : world) : world := World h (w_mach s) (w_buf s) (w_msgs s) (w_g s) (w_trace s).
Definition keep (a : option addr) (s : world) : world :=
  match a with Some a => World (w_heap s) (w_mach s) (w_buf s) (w_msgs s ++ [a]) (w_g s) (w_trace s) | None => s end.
Definition look (a : option addr) (e : option oerr) (h : heap) : option result :=
  match a with None => Some (Result None e) | Some a => match read5 h a with Some m => Some (Result (Some m) e) | None => None end end.
Definition m_emit (s : world) (a : option addr) (e : option oerr) (script : list op) : option (result * world) :=
  match look a e (w_heap s) with
  | None => None
  | Some r => match w_ops (keep a s) script with Some s' => Some (r, s') | None => None end
  end.
(* the last result of a run *)
Definition m_last (s : world) (a : option addr) (e : option oerr) (sc : list (list op)) (p : mparser) : option (list result * world * mparser) :=
  match m_emit s a e (script_now sc) with Some (r, s') => Some ([r], s', p) | None => None end.

(* octetcounting/parser.go:77-141 run: what the listener saw, the world and the parser afterwards; None: panic or fuel exhausted.
   sc: what the listener does after each result. *)
Definition m_run_body (rec : world -> list (list op) -> mparser -> option (list result * world * mparser))
    (tok : mtoken) (s : world) (sc : list (list op)) (p : mparser) : option (list result * world * mparser) :=
  let is k (t : mtoken) := is_typ k (Token (mt_typ t) []) in
  let len (p : mparser) := ms_msglen (mp_s p) in
  if negb (is MSGLEN tok) then match tok_now (w_heap s) tok with Some t => m_last s None (Some (EFound t MSGLEN)) sc p | None => None end
  else if mp_max p <? to_int (len p) then m_last s None (Some (ETooLong (len p) (mp_max p))) sc p
  else
    match mp_scan (w_heap s) p with
    | None => None
    | Some (tok, h, p) =>
      if negb (is WS tok) then match tok_now h tok with Some t => m_last (with_heap h s) None (Some (EFound t WS)) sc p | None => None end
      else
        match mp_scan h p with
        | None => None
        | Some (tok, h, p) =>
          if negb (is SYSLOGMSG tok) then
            match tok_now h tok with
            | None => None
            | Some t =>
              let e := EAfter t (len p) in
              if (Z.of_nat (length (tlit t)) <? to_int (len p)) && mp_best p then
                match mp_parse h p (mt_lit tok) with
                | Some (a, re, h, p') => m_last (with_heap h s) a (match re with None => Some e | Some re => Some (EMachine re) end) sc p'
                | None => None end
              else m_last (with_heap h s) None (Some e) sc p
            end
          else
            match mp_parse h p (mt_lit tok) with
            | None => None
            | Some (a, re, h, p) =>
              if negb (mp_best p) && match re with Some _ => true | None => false end then m_last (with_heap h s) None (option_map EMachine re) sc p
              else
                match m_emit (with_heap h s) a (option_map EMachine re) (script_now sc) with
                | None => None
                | Some (r, s) =>
                  match mp_scan (w_heap s) p with
                  | None => None
                  | Some (tok, h, p) =>
                    if is EOF tok then Some ([r], with_heap h s, p)
                    else match rec (with_heap h s) (script_next sc) (mp_unscan p) with
                         | Some (rs, s', p') => Some (r :: rs, s', p')
                         | None => None end
                  end
                end
            end
        end
    end.
Fixpoint m_run (fuel : nat) (s : world) (sc : list (list op)) (p : mparser) : option (list result * world * mparser) :=
  match fuel with
  | O => None
  | S f => match mp_scan (w_heap s) p with None => None | Some (tok, h, p) => m_run_body (m_run f) tok (with_heap h s) sc p end
  end.
(* octetcounting/parser.go:26-44 NewParser *)
Definition m_new_parser (opts : list popt) : mparser :=
  let p := new_parser opts in
  MParser (p_max p) (MScanner (HB (Slice 0 0 0 0) 0 0 None None [])%nat 0 false) (h_new_machine (p_best p) false) (MTok ILLEGAL (LOwn [])) false (p_best p).
(* octetcounting/parser.go:72-75 Parse *)
Definition m_parse_stream (s : world) (sc : list (list op)) (p : mparser) (rd : mreader) : option (list result * world * mparser) :=
  let (h, sn) := m_new_scanner (w_heap s) rd (mp_max p) in
  m_run (S (rd_size (calm rd))) (with_heap h s) sc (MParser (mp_max p) sn (mp_internal p) (mp_last p) (mp_stepback p) (mp_best p)).
(* several streams, one after the other, with one parser *)
Fixpoint m_streams (s : world) (p : mparser) (l : list (mreader * list (list op))) : option (list (list result) * world) :=
  match l with
  | [] => Some ([], s)
  | (rd, sc) :: r => match m_parse_stream s sc p rd with
                     | Some (rs, s', p') => match m_streams s' p' r with Some (rss, s2) => Some (rs :: rss, s2) | None => None end
                     | None => None end
  end.
