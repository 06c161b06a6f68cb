(* octetcounting on a platform where int has 32 bits (GOARCH 386, arm, mips, wasm excepted): MOctet.v with the conversions int(s.msglen) of a
   uint64 and the sum maxLength+20 in 32 bits.  strconv.ParseUint still yields 64 bits.  The int arguments of bufio are then below 2^31. *)
From Verif Require Import Bytes Common M5424Def M5424 Bufio MOctet SpecOctet.
Local Open Scope Z_scope.

(* int(x) of a uint64 x, with 32 bits: the low 32 bits, in two's complement *)
Definition to_int32 (x : Z) : Z := let y := x mod 2 ^ 32 in if y <? 2 ^ 31 then y else y - 2 ^ 32.
Definition add_int32 (a b : Z) : Z := to_int32 (a + b).
(* int arithmetic with 32 bits *)
Definition wrap32 (z : Z) : Z := (z + 2 ^ 31) mod 2 ^ 32 - 2 ^ 31.
(* common/functions.go:8-17 UnsafeUTF8DecimalCodePointsToInt *)
Fixpoint dec_loop32 (rev_chars : bytes) (out ord : Z) : Z :=
  match rev_chars with
  | [] => out
  | c :: r => dec_loop32 r (wrap32 (out + wrap32 ((Z.of_N (bN c) - 48) * ord))) (wrap32 (ord * 10))
  end.
Definition dec_to_int32 (chars : bytes) : Z := dec_loop32 (rev chars) 0 1.

(* octetcounting/scanner.go:37-41 NewScanner *)
Definition new_scanner32 (rd : reader) (max : Z) : scanner := Scanner (new_reader_size rd (add_int32 max 20)) 0 false.
(* octetcounting/scanner.go:122-144 scanSyslogMsg *)
Definition scan_syslog_msg32 (s : scanner) : option (token * scanner) :=
  let n := to_int32 (s_msglen s) in
  match peek n (s_r s) with
  | None => None
  | Some (l, true, b) => match discard n b with Some b' => Some (Token SYSLOGMSG l, Scanner b' 0 false) | None => None end
  | Some (l, false, b) => Some (Token EOF l, Scanner b (s_msglen s) (s_ready s))
  end.
(* octetcounting/scanner.go:59-93 Scan *)
Definition scan32 (s : scanner) : option (token * scanner) :=
  match sread (s_r s) with
  | None => None
  | Some (c, b) =>
    if is_nonzero_digit c then scan_msg_len (Scanner (unread_byte b) (s_msglen s) false)
    else if beqb c x00 then Some (Token EOF [], Scanner b (s_msglen s) false)
    else if beqb c " " then Some (Token WS [" "%byte], Scanner b (s_msglen s) true)
    else if beqb c "<" && (0 <? s_msglen s) && s_ready s then scan_syslog_msg32 (Scanner (unread_byte b) (s_msglen s) (s_ready s))
    else Some (Token ILLEGAL [c], Scanner b (s_msglen s) (s_ready s))
  end.
(* octetcounting/parser.go:154-173 scan, unscan *)
Definition pscan32 (p : oparser) : option (token * oparser) :=
  if p_stepback p then Some (p_last p, set_p_stepback false p)
  else match scan32 (p_s p) with Some (t, s) => Some (t, set_p_s s t p) | None => None end.
(* octetcounting/parser.go:77-141 run *)
Definition run_body32 (rec : oparser -> option (list result * oparser)) (tok : token) (p : oparser) : option (list result * oparser) :=
  if negb (is_typ MSGLEN tok) then Some ([Result None (Some (EFound tok MSGLEN))], p)
  else if p_max p <? to_int32 (s_msglen (p_s p)) then Some ([Result None (Some (ETooLong (s_msglen (p_s p)) (p_max p)))], p)
  else
    match pscan32 p with
    | None => None
    | Some (tok, p) =>
      if negb (is_typ WS tok) then Some ([Result None (Some (EFound tok WS))], p)
      else
        match pscan32 p with
        | None => None
        | Some (tok, p) =>
          if negb (is_typ SYSLOGMSG tok) then
            let e := EAfter tok (s_msglen (p_s p)) in
            if (Z.of_nat (length (tlit tok)) <? to_int32 (s_msglen (p_s p))) && p_best p then
              match pparse p (tlit tok) with
              | Some (Result m re, p') => Some ([Result m (match re with None => Some e | Some _ => re end)], p')
              | None => None end
            else Some ([Result None (Some e)], p)
          else
            match pparse p (tlit tok) with
            | None => None
            | Some (res, p) =>
              if negb (p_best p) && match r_err res with Some _ => true | None => false end then Some ([Result None (r_err res)], p)
              else
                match pscan32 p with
                | None => None
                | Some (tok, p) =>
                  if is_typ EOF tok then Some ([res], p)
                  else match rec (set_p_stepback true p) with
                       | Some (rs, p') => Some (res :: rs, p')
                       | None => None end
                end
            end
        end
    end.
Fixpoint run32 (fuel : nat) (p : oparser) : option (list result * oparser) :=
  match fuel with
  | O => None
  | S f => match pscan32 p with None => None | Some (tok, p) => run_body32 (run32 f) tok p end
  end.
(* octetcounting/parser.go:72-75 Parse *)
Definition parse_stream32 (p : oparser) (rd : reader) : option (list result * oparser) :=
  run32 (S (rd_size rd)) (OParser (p_max p) (new_scanner32 rd (p_max p)) (p_internal p) (p_last p) (p_stepback p) (p_best p)).
(* the parser after earlier streams; what it emits for the next one *)
Fixpoint after_streams32 (p : oparser) (rds : list reader) : oparser :=
  match rds with [] => p | rd :: r => match parse_stream32 p rd with Some (_, p') => after_streams32 p' r | None => p end end.
Definition emitted32 (opts : list popt) (before : list reader) (rd : reader) : option (list result) :=
  results (parse_stream32 (after_streams32 (new_parser opts) before) rd).

(* 4294967312 = 2^32 + 16 *)
Example wraps32 : emitted32 [] [] [(lit "4294967312 <1>1 - - - - - -", None)] = Some [answer_result false (lit "<1>1 - - - - - -")]
  /\ emitted [] [] [(lit "4294967312 <1>1 - - - - - -", None)] = Some [Result None (Some (ETooLong 4294967312 8192))].
Proof. split; vm_compute; reflexivity. Qed.
