(* octetcounting: Parse when the reader it is given is itself a *bufio.Reader. *)
From Verif Require Import Bytes Common M5424Def M5424 MBuilder Bufio MOctet.
Local Open Scope Z_scope.

(* octetcounting/scanner.go:37-41 NewScanner, through bufio.NewReaderSize: a *bufio.Reader whose buffer has at least the requested size is
   used as it is.  None: a smaller one, which NewReaderSize wraps in a new bufio.Reader like any other io.Reader (MOctet.new_scanner). *)
Definition new_scanner_buf (b : bufio) (max : Z) : option scanner :=
  if add_int max 20 <=? f_size b then Some (Scanner b 0 false) else None.
(* octetcounting/parser.go:72-75 Parse *)
Definition parse_buf (p : oparser) (b : bufio) : option (list result * oparser) :=
  match new_scanner_buf b (p_max p) with
  | Some s => run (S (left b)) (OParser (p_max p) s (p_internal p) (p_last p) (p_stepback p) (p_best p))
  | None => None end.
(* the *bufio.Reader, which the caller still has, when Parse has returned *)
Definition buf_after (p : oparser) : bufio := s_r (p_s p).
