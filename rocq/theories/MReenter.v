(* octetcounting: a listener that uses the parser that is calling it.  The listener runs inside Parse (parser.go:82-131 call p.emit); it may
   apply options to the parser and call Parse on it with another reader.  run of MOctet.v with the listener's doings at each call.
   Simplification: what the listener does is fixed in advance for each of its calls (the theorems range over all such scripts). *)
From Verif Require Import Bytes Common M5424Def M5424 MBuilder Bufio MOctet MLater.
Local Open Scope Z_scope.

(* the n-th element: what the listener does in its n-th call, counted over all streams in the order of the calls; afterwards it only listens *)
Definition script := list (list oevent).
Definition rres := option (list result * script * oparser).
(* octetcounting/parser.go:72-75 Parse: the scanner is replaced, everything else stays *)
Definition restart (p : oparser) (rd : reader) : oparser :=
  OParser (p_max p) (new_scanner rd (p_max p)) (p_internal p) (p_last p) (p_stepback p) (p_best p).
Fixpoint re_events (stream : script -> oparser -> rres) (evs : list oevent) (sc : script) (p : oparser) : rres :=
  match evs with
  | [] => Some ([], sc, p)
  | OApply o :: evs' => re_events stream evs' sc (apply_opt p o)
  | OStream rd :: evs' =>
    match stream sc (restart p rd) with
    | None => None
    | Some (rs, sc', p') => match re_events stream evs' sc' p' with Some (rs', sc'', p'') => Some (rs ++ rs', sc'', p'') | None => None end
    end
  end.
(* a call of p.emit *)
Definition re_emit (stream : script -> oparser -> rres) (r : result) (sc : script) (p : oparser) : rres :=
  match sc with
  | [] => Some ([r], [], p)
  | evs :: sc' => match re_events stream evs sc' p with Some (rs, sc'', p') => Some (r :: rs, sc'', p') | None => None end
  end.
(* octetcounting/parser.go:77-141 run, as in MOctet.run_body; rec is run itself *)
Definition re_body (rec : script -> oparser -> rres) (tok : token) (sc : script) (p : oparser) : rres :=
  if negb (is_typ MSGLEN tok) then re_emit rec (Result None (Some (EFound tok MSGLEN))) sc p
  else if p_max p <? to_int (s_msglen (p_s p)) then re_emit rec (Result None (Some (ETooLong (s_msglen (p_s p)) (p_max p)))) sc p
  else
    match pscan p with
    | None => None
    | Some (tok, p) =>
      if negb (is_typ WS tok) then re_emit rec (Result None (Some (EFound tok WS))) sc p
      else
        match pscan p with
        | None => None
        | Some (tok, p) =>
          if negb (is_typ SYSLOGMSG tok) then
            let e := EAfter tok (s_msglen (p_s p)) in
            if (Z.of_nat (length (tlit tok)) <? to_int (s_msglen (p_s p))) && p_best p then
              match pparse p (tlit tok) with
              | Some (Result m re, p') => re_emit rec (Result m (match re with None => Some e | Some _ => re end)) sc p'
              | None => None end
            else re_emit rec (Result None (Some e)) sc p
          else
            match pparse p (tlit tok) with
            | None => None
            | Some (res, p) =>
              if negb (p_best p) && match r_err res with Some _ => true | None => false end then re_emit rec (Result None (r_err res)) sc p
              else
                match re_emit rec res sc p with
                | None => None
                | Some (rs, sc, p) =>
                  match pscan p with
                  | None => None
                  | Some (tok, p) =>
                    if is_typ EOF tok then Some (rs, sc, p)
                    else match rec sc (set_p_stepback true p) with
                         | Some (rs', sc', p') => Some (rs ++ rs', sc', p')
                         | None => None end
                  end
                end
            end
        end
    end.
Fixpoint re_run (fuel : nat) (sc : script) (p : oparser) : rres :=
  match fuel with
  | O => None
  | S f => match pscan p with None => None | Some (tok, p) => re_body (re_run f) tok sc p end
  end.
(* Parse with a listener that follows the script.  The fuel bounds the number of frames in all the streams and the depth of the calls. *)
Definition evs_size (evs : list oevent) : nat := fold_right (fun v n => match v with OStream rd => (S (S (rd_size rd)) + n)%nat | OApply _ => n end) 0%nat evs.
Definition script_size (sc : script) : nat := fold_right (fun evs n => (evs_size evs + n)%nat) 0%nat sc.
Definition re_stream (sc : script) (p : oparser) (rd : reader) : rres := re_run (S (S (rd_size rd + script_size sc))) sc (restart p rd).
Definition re_results (r : rres) : option (list result) := match r with Some (rs, _, _) => Some rs | None => None end.

(* what run reports if it goes on, behind a message, with the scanner that another stream has left *)
Definition continued (p : oparser) : option (list result) :=
  match pscan p with
  | None => None
  | Some (tok, p) => if is_typ EOF tok then Some [] else results (run (S (S (left (s_r (p_s p))))) (set_p_stepback true p)) end.
