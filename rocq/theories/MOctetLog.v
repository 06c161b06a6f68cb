(* octetcounting: the same program as MOctet.run, recording with every emitted result what the reader has still to answer
   at that moment (the reads not made yet).  log_results below: forgetting the record gives MOctet.run. *)
From Verif Require Import Bytes Common M5424Def M5424 MBuilder Bufio MOctet.
Local Open Scope Z_scope.

(* the reads not made yet *)
Definition to_read (p : oparser) : reader := f_rd (s_r (p_s p)).
(* octetcounting/parser.go:77-141 run; p.emit records the result and the reads not made yet *)
Definition log_body (rec : oparser -> option (list (result * reader) * oparser)) (tok : token) (p : oparser) : option (list (result * reader) * oparser) :=
  if negb (is_typ MSGLEN tok) then Some ([(Result None (Some (EFound tok MSGLEN)), to_read p)], p)
  else if p_max p <? to_int (s_msglen (p_s p)) then Some ([(Result None (Some (ETooLong (s_msglen (p_s p)) (p_max p))), to_read p)], p)
  else
    match pscan p with
    | None => None
    | Some (tok, p) =>
      if negb (is_typ WS tok) then Some ([(Result None (Some (EFound tok WS)), to_read p)], p)
      else
        match pscan p with
        | None => None
        | Some (tok, p) =>
          if negb (is_typ SYSLOGMSG tok) then
            let e := EAfter tok (s_msglen (p_s p)) in
            if (Z.of_nat (length (tlit tok)) <? to_int (s_msglen (p_s p))) && p_best p then
              match pparse p (tlit tok) with
              | Some (Result m re, p') => Some ([(Result m (match re with None => Some e | Some _ => re end), to_read p')], p')
              | None => None end
            else Some ([(Result None (Some e), to_read p)], p)
          else
            match pparse p (tlit tok) with
            | None => None
            | Some (res, p) =>
              if negb (p_best p) && match r_err res with Some _ => true | None => false end then Some ([(Result None (r_err res), to_read p)], p)
              else
                let here := to_read p in
                match pscan p with
                | None => None
                | Some (tok, p) =>
                  if is_typ EOF tok then Some ([(res, here)], p)
                  else match rec (set_p_stepback true p) with
                       | Some (rs, p') => Some ((res, here) :: rs, p')
                       | None => None end
                end
            end
        end
    end.
Fixpoint log_run (fuel : nat) (p : oparser) : option (list (result * reader) * oparser) :=
  match fuel with
  | O => None
  | S f => match pscan p with None => None | Some (tok, p) => log_body (log_run f) tok p end
  end.
(* octetcounting/parser.go:72-75 Parse *)
Definition log_stream (p : oparser) (rd : reader) : option (list (result * reader) * oparser) :=
  log_run (S (rd_size rd)) (OParser (p_max p) (new_scanner rd (p_max p)) (p_internal p) (p_last p) (p_stepback p) (p_best p)).

Lemma log_run_results f : forall p, run f p = match log_run f p with Some (l, q) => Some (map fst l, q) | None => None end.
Proof.
  induction f as [|f IH]; intros p; [reflexivity|]. cbn [run log_run]. destruct (pscan p) as [[tok q]|]; [|reflexivity]. unfold run_body, log_body.
  destruct (negb (is_typ MSGLEN tok)); [reflexivity|]. destruct (p_max q <? to_int (s_msglen (p_s q))); [reflexivity|].
  destruct (pscan q) as [[tok1 q1]|]; [|reflexivity]. destruct (negb (is_typ WS tok1)); [reflexivity|].
  destruct (pscan q1) as [[tok2 q2]|]; [|reflexivity]. destruct (negb (is_typ SYSLOGMSG tok2)).
  - cbv zeta. destruct ((Z.of_nat (length (tlit tok2)) <? to_int (s_msglen (p_s q2))) && p_best q2); [|reflexivity]. destruct (pparse q2 (tlit tok2)) as [[[m re] q3]|]; reflexivity.
  - destruct (pparse q2 (tlit tok2)) as [[res q3]|]; [|reflexivity]. destruct (negb (p_best q3) && match r_err res with Some _ => true | None => false end); [reflexivity|].
    cbv zeta. destruct (pscan q3) as [[tok4 q4]|]; [|reflexivity]. destruct (is_typ EOF tok4); [reflexivity|]. rewrite IH. destruct (log_run f (set_p_stepback true q4)) as [[l q5]|]; reflexivity.
Qed.
(* forgetting the record gives the program of MOctet *)
Theorem log_stream_results p rd : parse_stream p rd = match log_stream p rd with Some (l, q) => Some (map fst l, q) | None => None end.
Proof. apply log_run_results. Qed.
