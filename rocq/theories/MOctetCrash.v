(* octetcounting: panics of foreign code.  The listener and the reader are the user's; either may panic (or call runtime.Goexit) when the
   parser calls it.  Parse then ends, and the parser keeps the fields it had at that moment.  run of MOctet.v with a record of these moments. *)
From Verif Require Import Bytes Common M5424Def M5424 MBuilder Bufio MOctet SpecOctet.
Local Open Scope Z_scope.

(* a call of the listener with a result, or of the scanner (which reads), and the parser at that moment *)
Inductive point := AtListener (r : result) (p : oparser) | AtReader (p : oparser).
Definition point_parser (x : point) : oparser := match x with AtListener _ p => p | AtReader p => p end.
(* octetcounting/parser.go:152-168 scan: the scanner is called unless a token was pushed back *)
Definition scan_point (p : oparser) : list point := if p_stepback p then [] else [AtReader p].
(* octetcounting/parser.go:77-141 run, as in MOctet.run_body *)
Definition pt_body (rec : oparser -> option (list point * oparser)) (tok : token) (p : oparser) : option (list point * oparser) :=
  if negb (is_typ MSGLEN tok) then Some ([AtListener (Result None (Some (EFound tok MSGLEN))) p], p)
  else if p_max p <? to_int (s_msglen (p_s p)) then Some ([AtListener (Result None (Some (ETooLong (s_msglen (p_s p)) (p_max p)))) p], p)
  else
    let s1 := scan_point p in
    match pscan p with
    | None => None
    | Some (tok, p) =>
      if negb (is_typ WS tok) then Some (s1 ++ [AtListener (Result None (Some (EFound tok WS))) p], p)
      else
        let s2 := scan_point p in
        match pscan p with
        | None => None
        | Some (tok, p) =>
          if negb (is_typ SYSLOGMSG tok) then
            let e := EAfter tok (s_msglen (p_s p)) in
            if (Z.of_nat (length (tlit tok)) <? to_int (s_msglen (p_s p))) && p_best p then
              match pparse p (tlit tok) with
              | Some (Result m re, p') => Some (s1 ++ s2 ++ [AtListener (Result m (match re with None => Some e | Some _ => re end)) p'], p')
              | None => None end
            else Some (s1 ++ s2 ++ [AtListener (Result None (Some e)) p], p)
          else
            match pparse p (tlit tok) with
            | None => None
            | Some (res, p) =>
              if negb (p_best p) && match r_err res with Some _ => true | None => false end then Some (s1 ++ s2 ++ [AtListener (Result None (r_err res)) p], p)
              else
                let here := s1 ++ s2 ++ AtListener res p :: scan_point p in
                match pscan p with
                | None => None
                | Some (tok, p) =>
                  if is_typ EOF tok then Some (here, p)
                  else match rec (set_p_stepback true p) with
                       | Some (rs, p') => Some (here ++ rs, p')
                       | None => None end
                end
            end
        end
    end.
Fixpoint pt_run (fuel : nat) (p : oparser) : option (list point * oparser) :=
  match fuel with
  | O => None
  | S f => let s0 := scan_point p in
           match pscan p with
           | None => None
           | Some (tok, p) => match pt_body (pt_run f) tok p with Some (l, p') => Some (s0 ++ l, p') | None => None end end
  end.
(* octetcounting/parser.go:72-75 Parse *)
Definition pt_stream (p : oparser) (rd : reader) : option (list point * oparser) :=
  pt_run (S (rd_size rd)) (OParser (p_max p) (new_scanner rd (p_max p)) (p_internal p) (p_last p) (p_stepback p) (p_best p)).
Definition handed (l : list point) : list result := flat_map (fun x => match x with AtListener r _ => [r] | AtReader _ => [] end) l.

(* a stream parsed to its end, or interrupted at the k-th point; s: what is left of the scanner then *)
Inductive fate := Finished | Panicked (k : nat) (s : scanner).
(* the parser afterwards *)
Definition survive (p : oparser) (rd : reader) (f : fate) : oparser :=
  match pt_stream p rd with
  | None => p
  | Some (l, p') => match f with
                    | Finished => p'
                    | Panicked k s => match nth_error l k with
                                      | Some x => let q := point_parser x in OParser (p_max q) s (p_internal q) (p_last q) (p_stepback q) (p_best q)
                                      | None => p' end
                    end
  end.
Fixpoint lives (p : oparser) (h : list (reader * fate)) : oparser := match h with [] => p | (rd, f) :: h => lives (survive p rd f) h end.

(* forgetting the points gives the program of MOctet *)
Lemma handed_app a b : handed (a ++ b) = handed a ++ handed b. Proof. apply flat_map_app. Qed.
Lemma handed_scan p : handed (scan_point p) = []. Proof. unfold scan_point. destruct (p_stepback p); reflexivity. Qed.
Lemma pt_run_results f : forall p, run f p = match pt_run f p with Some (l, q) => Some (handed l, q) | None => None end.
Proof.
  induction f as [|f IH]; intros p; [reflexivity|]. cbn [run pt_run]. destruct (pscan p) as [[tok q]|]; [|reflexivity].
  assert (E : run_body (run f) tok q = match pt_body (pt_run f) tok q with Some (l, q') => Some (handed l, q') | None => None end).
  { unfold run_body, pt_body. destruct (negb (is_typ MSGLEN tok)); [reflexivity|]. destruct (p_max q <? to_int (s_msglen (p_s q))); [reflexivity|]. cbv zeta.
    destruct (pscan q) as [[tok1 q1]|]; [|reflexivity]. destruct (negb (is_typ WS tok1)); [rewrite handed_app, handed_scan; reflexivity|].
    destruct (pscan q1) as [[tok2 q2]|]; [|reflexivity]. destruct (negb (is_typ SYSLOGMSG tok2)).
    - destruct ((Z.of_nat (length (tlit tok2)) <? to_int (s_msglen (p_s q2))) && p_best q2); [|rewrite !handed_app, !handed_scan; reflexivity].
      destruct (pparse q2 (tlit tok2)) as [[[m re] q3]|]; [|reflexivity]. rewrite !handed_app, !handed_scan. reflexivity.
    - destruct (pparse q2 (tlit tok2)) as [[res q3]|]; [|reflexivity].
      destruct (negb (p_best q3) && match r_err res with Some _ => true | None => false end); [rewrite !handed_app, !handed_scan; reflexivity|].
      assert (Eh : handed (scan_point q ++ scan_point q1 ++ AtListener res q3 :: scan_point q3) = [res]).
      { rewrite !handed_app, !handed_scan. cbn [app]. change (handed (AtListener res q3 :: scan_point q3)) with (res :: handed (scan_point q3)). rewrite handed_scan. reflexivity. }
      destruct (pscan q3) as [[tok4 q4]|]; [|reflexivity]. destruct (is_typ EOF tok4); [rewrite Eh; reflexivity|]. rewrite IH.
      destruct (pt_run f (set_p_stepback true q4)) as [[l q5]|]; [|reflexivity]. rewrite (handed_app _ l), Eh. reflexivity. }
  rewrite E. destruct (pt_body (pt_run f) tok q) as [[l q']|]; [|reflexivity]. rewrite handed_app, handed_scan. reflexivity.
Qed.
Theorem pt_stream_results p rd : parse_stream p rd = match pt_stream p rd with Some (l, q) => Some (handed l, q) | None => None end.
Proof. apply pt_run_results. Qed.
