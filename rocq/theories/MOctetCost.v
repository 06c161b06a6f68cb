(* octetcounting: the same program as MOctet, counting the work: every function below does what the function of the same
   name in MOctet.v or Bufio.v does (octet_work_results in ThmOctetCost.v: forgetting the count gives MOctet.parse_stream)
   and adds what it costs.  Counted: one for every iteration of a loop and every call of a method of the scanner, of
   bufio.Reader and of the reader, one for every byte that Read copies into the buffer, that fill moves to the front of the
   buffer, that scanMsgLen appends to the literal and that ParseUint reads.  Not counted as a number but recorded: the calls
   of Parse of the RFC 5424 machine, with the machine and the input; what these cost is counted in Steps.v.
   Not counted: the allocation of the buffer by NewReaderSize (one for each stream). *)
From Verif Require Import Bytes Common M5424Def M5424 MBuilder Bufio MOctet.
Local Open Scope Z_scope.

(* the cost, the calls of the RFC 5424 machine, and the result (None as in MOctet.v) *)
Definition W (X : Type) : Type := (Z * list (machine * bytes) * option X)%type.
Definition wret {X} (x : X) : W X := (0, [], Some x).
Definition wfail {X} : W X := (0, [], None).
Definition tick {X} (n : Z) (m : W X) : W X := match m with (c, l, x) => (n + c, l, x) end.
Definition bind {X Y} (m : W X) (f : X -> W Y) : W Y :=
  match m with
  | (c, l, Some x) => match f x with (c', l', y) => (c + c', l ++ l', y) end
  | (c, l, None) => (c, l, None)
  end.
Notation "'let!' x ':=' m 'in' k" := (bind m (fun x => k)) (at level 200, x pattern, m at level 100, k at level 200).
Definition size (l : bytes) : Z := Z.of_nat (length l).

(* the loop of bufio.Reader.fill (Bufio.fill_loop) *)
Fixpoint w_fill_loop (k : nat) (len : Z) (rd : reader) : W (bytes * option rerr * reader) :=
  match k with
  | O => wret ([], Some RNoProgress, rd)
  | S k' => match rd_read len rd with
            | (c, e, rd') => tick (1 + size c)
                (match e with
                 | Some _ => wret (c, e, rd')
                 | None => match c with [] => w_fill_loop k' len rd' | _ => wret (c, None, rd') end end)
            end
  end.
(* bufio.Reader.fill (Bufio.fill); the unread bytes are moved to the front unless they are there *)
Definition w_fill (b : bufio) : W bufio :=
  if f_size b <=? f_buffered b then wfail
  else tick (if f_r b =? 0 then 0 else f_buffered b)
    (let! (c, e, rd') := w_fill_loop 100 (f_size b - f_buffered b) (f_rd b) in
     wret (Bufio (f_un b ++ c) 0 (f_last b) (match e with Some _ => e | None => f_err b end) (f_size b) rd')).
(* bufio.Reader.ReadByte (Bufio.read_byte) *)
Fixpoint w_read_byte_loop (fuel : nat) (b : bufio) : W (option byte * bufio) :=
  match fuel with
  | O => wfail
  | S f => tick 1
           match f_un b with
           | c :: u => wret (Some c, Bufio u (f_r b + 1) (Some c) (f_err b) (f_size b) (f_rd b))
           | [] => match f_err b with
                   | Some _ => wret (None, clear_err b)
                   | None => let! b' := w_fill b in w_read_byte_loop f b' end
           end
  end.
Definition w_read_byte (b : bufio) := w_read_byte_loop 3 b.
(* bufio.Reader.UnreadByte (Bufio.unread_byte) *)
Definition w_unread_byte (b : bufio) : W bufio := tick 1 (wret (unread_byte b)).
(* bufio.Reader.Peek (Bufio.peek) *)
Fixpoint w_peek_loop (fuel : nat) (n : Z) (b : bufio) : W bufio :=
  if (f_buffered b <? n) && (f_buffered b <? f_size b) && (match f_err b with None => true | Some _ => false end) then
    match fuel with
    | O => wfail
    | S f => tick 1 (let! b' := w_fill b in w_peek_loop f n b')
    end
  else tick 1 (wret b).
Definition w_peek (n : Z) (b : bufio) : W (bytes * bool * bufio) :=
  if n <? 0 then tick 1 (wret ([], false, b))
  else let! b := w_peek_loop (S (S (rd_size (f_rd b)))) n (set_last None b) in
       if f_size b <? n then wret (f_un b, false, b)
       else if f_buffered b <? n then wret (f_un b, false, clear_err b)
       else wret (firstn (Z.to_nat n) (f_un b), true, b).
(* bufio.Reader.Discard (Bufio.discard) *)
Fixpoint w_discard_loop (fuel : nat) (n : Z) (b : bufio) : W bufio :=
  match fuel with
  | O => wfail
  | S f => tick 1
    (let! b := (if f_buffered b =? 0 then w_fill b else wret b) in
        let skip := Z.min (f_buffered b) n in
        let b' := Bufio (skipn (Z.to_nat skip) (f_un b)) (f_r b + skip) (f_last b) (f_err b) (f_size b) (f_rd b) in
        if n - skip =? 0 then wret b'
        else match f_err b' with Some _ => wret (clear_err b') | None => w_discard_loop f (n - skip) b' end)
  end.
Definition w_discard (n : Z) (b : bufio) : W bufio :=
  if n <=? 0 then tick 1 (wret b) else w_discard_loop (S (S (rd_size (f_rd b)))) n (set_last None b).

(* octetcounting/scanner.go:45-51 read *)
Definition w_sread (b : bufio) : W (byte * bufio) :=
  tick 1 (let! (c, b') := w_read_byte b in wret (match c with Some c => c | None => x00 end, b')).
(* octetcounting/scanner.go:102-111 the loop of scanMsgLen *)
Fixpoint w_digits_loop (fuel : nat) (b : bufio) (buf : bytes) : W (bytes * bufio) :=
  match fuel with
  | O => wfail
  | S f => tick 1
           (let! (c, b') := w_sread b in
            if beqb c x00 then wret (buf, b')
            else if negb (is_digit c) then let! b' := w_unread_byte b' in wret (buf, b')
            else tick 1 (w_digits_loop f b' (buf ++ [c])))
  end.
(* octetcounting/scanner.go:95-120 scanMsgLen; ParseUint reads at most the whole literal *)
Definition w_scan_msg_len (s : scanner) : W (token * scanner) :=
  tick 1
  (let! (c, b) := w_sread (s_r s) in
   let! (buf, b') := tick 1 (w_digits_loop (S (left b)) b [c]) in
   tick (size buf) (wret (Token MSGLEN buf, Scanner b' (parse_uint buf) (s_ready s)))).
(* octetcounting/scanner.go:122-144 scanSyslogMsg *)
Definition w_scan_syslog_msg (s : scanner) : W (token * scanner) :=
  let n := to_int (s_msglen s) in
  tick 1
  (let! (l, ok, b) := w_peek n (s_r s) in
   if ok : bool then let! b' := w_discard n b in wret (Token SYSLOGMSG l, Scanner b' 0 false)
   else wret (Token EOF l, Scanner b (s_msglen s) (s_ready s))).
(* octetcounting/scanner.go:59-93 Scan *)
Definition w_scan (s : scanner) : W (token * scanner) :=
  tick 1
  (let! (c, b) := w_sread (s_r s) in
    if is_nonzero_digit c then let! b := w_unread_byte b in w_scan_msg_len (Scanner b (s_msglen s) false)
    else if beqb c x00 then wret (Token EOF [], Scanner b (s_msglen s) false)
    else if beqb c " " then wret (Token WS [" "%byte], Scanner b (s_msglen s) true)
    else if beqb c "<" && (0 <? s_msglen s) && s_ready s then let! b := w_unread_byte b in w_scan_syslog_msg (Scanner b (s_msglen s) (s_ready s))
    else wret (Token ILLEGAL [c], Scanner b (s_msglen s) (s_ready s))).

(* octetcounting/parser.go:154-173 scan, unscan *)
Definition w_pscan (p : oparser) : W (token * oparser) :=
  tick 1
  (if p_stepback p then wret (p_last p, set_p_stepback false p)
   else let! (t, s) := w_scan (p_s p) in wret (t, set_p_s s t p)).
(* octetcounting/parser.go:143-150 parse *)
Definition w_pparse (p : oparser) (input : bytes) : W (result * oparser) :=
  (1, [(p_internal p, input)], pparse p input).
(* octetcounting/parser.go:77-141 run *)
Definition w_run_body (rec : oparser -> W (list result * oparser)) (tok : token) (p : oparser) : W (list result * oparser) :=
  if negb (is_typ MSGLEN tok) then wret ([Result None (Some (EFound tok MSGLEN))], p)
  else if p_max p <? to_int (s_msglen (p_s p)) then wret ([Result None (Some (ETooLong (s_msglen (p_s p)) (p_max p)))], p)
  else
    let! (tok, p) := w_pscan p in
    if negb (is_typ WS tok) then wret ([Result None (Some (EFound tok WS))], p)
    else
      let! (tok, p) := w_pscan p in
      if negb (is_typ SYSLOGMSG tok) then
        let e := EAfter tok (s_msglen (p_s p)) in
        if (Z.of_nat (length (tlit tok)) <? to_int (s_msglen (p_s p))) && p_best p then
          let! (Result m re, p') := w_pparse p (tlit tok) in
          wret ([Result m (match re with None => Some e | Some _ => re end)], p')
        else wret ([Result None (Some e)], p)
      else
        let! (res, p) := w_pparse p (tlit tok) in
        if negb (p_best p) && match r_err res with Some _ => true | None => false end then wret ([Result None (r_err res)], p)
        else
          let! (tok, p) := w_pscan p in
          if is_typ EOF tok then wret ([res], p)
          else let! (rs, p') := rec (set_p_stepback true p) in wret (res :: rs, p').
Fixpoint w_run (fuel : nat) (p : oparser) : W (list result * oparser) :=
  match fuel with
  | O => wfail
  | S f => tick 1 (let! (tok, p) := w_pscan p in w_run_body (w_run f) tok p)
  end.
(* octetcounting/parser.go:72-75 Parse *)
Definition w_stream (p : oparser) (rd : reader) : W (list result * oparser) :=
  w_run (S (rd_size rd)) (OParser (p_max p) (new_scanner rd (p_max p)) (p_internal p) (p_last p) (p_stepback p) (p_best p)).

Example octet_cost_ex : exists q, w_stream (new_parser []) [(lit "16 <1>1 - - - ", None); (lit "- - -16 <2>1 - - - - - -", None)] =
  (126, [(new_machine false false, lit "<1>1 - - - - - -"); (fst (parse (new_machine false false) (lit "<1>1 - - - - - -")), lit "<2>1 - - - - - -")], Some q).
Proof. eexists. vm_compute. reflexivity. Qed.
