(* rfc3164 parsing as functions on byte lists, without automaton, mark or index bookkeeping.
   Positions are the column numbers reported in errors. *)
From Verif Require A5424 Spec5424.
From Verif Require Import Bytes GoTime Cal Common GotoLang M3164Def A3164.
Local Open Scope Z_scope.
Notation len := Spec5424.len.
Notation is := Spec5424.is.
Notation span_max := Spec5424.span_max.
Notation prival := Spec5424.prival.

(* PGood: accepted; PBad: rejected with the partial message (None: not minimally valid) and the error (None: no error is reported) *)
Inductive pres := PGood (o : msg3164) | PBad (o : option msg3164) (e : option perr).
Definition stage := msg3164 -> Z -> bytes -> pres.

(* ---- message part ---- *)
Definition has_ctl (l : bytes) : bool := existsb (fun b => is_ctl (bN b)) l.
(* the rest r must be free of control characters; the message is full *)
Definition p_text (o : msg3164) (full r : bytes) : pres := if has_ctl r then PBad (Some o) None else PGood (set_o_message full o).
(* after TAG "[": w is the text since the last mark, k how much of "]: " has just been read *)
Fixpoint p_cont (bad : bool) (k : nat) (o : msg3164) (w rest : bytes) : pres :=
  match rest with
  | [] => if bad then PBad (Some o) None else PGood (set_o_message w o)
  | b :: r =>
      if is 93 b then (match k with 3%nat => p_cont false 1 (set_o_content w o) [b] r | _ => p_cont bad 1 (set_o_content w o) (w ++ [b]) r end)
      else if is_ctl (bN b) then p_cont true 0 o (w ++ [b]) r
      else match k with
           | 3%nat => p_cont false 0 o [b] r
           | 1%nat => p_cont bad (if is 58 b then 2 else 0) o (w ++ [b]) r
           | 2%nat => p_cont bad (if is 32 b then 3 else 0) o (w ++ [b]) r
           | _ => p_cont bad 0 o (w ++ [b]) r
           end
  end.
Definition p_msg : stage := fun o p rest =>
  match rest with
  | [] => PBad (Some o) (Some (PErr ETag p))
  | b :: _ =>
    if is_ctl (bN b) then PBad (Some o) (Some (PErr ETag p)) else
    let '(w, r) := span_max is_tagc 32 rest in
    match w, r with
    | _ :: _, c :: r' =>
        if is 58 c then
          match r' with
          | s :: ((_ :: _) as m) => if is 32 s then p_text (set_o_tag w o) m m else p_text (set_o_tag w o) rest r'
          | _ => p_text (set_o_tag w o) rest r'
          end
        else if is 91 c then
          match r' with
          | [] => PGood (set_o_message rest (set_o_tag w o))
          | _ => p_cont false 0 (set_o_tag w o) [] r'
          end
        else p_text o rest r
    | _, _ => p_text o rest r
    end
  end.

(* ---- HOSTNAME ---- *)
Definition p_host (k : stage) : stage := fun o p rest =>
  let '(w, r) := span_max is_graph 255 rest in
  match w, r with
  | _ :: _, b :: r' => if is 32 b then k (set_o_hostname w o) (p + len w + 1) r' else PBad (Some o) (Some (PErr EHostname (p + len w)))
  | _, _ => PBad (Some o) (Some (PErr EHostname (p + len w)))
  end.

(* ---- TIMESTAMP ---- *)
(* SDone w r: the automaton reached fin after reading w; SStop w n: it stopped in state n after reading w *)
Inductive sres := SDone (w r : bytes) | SStop (w : bytes) (n : N).
Definition scons (b : byte) (s : sres) : sres := match s with SDone w r => SDone (b :: w) r | SStop w n => SStop (b :: w) n end.
Fixpoint scan (next : N -> N -> option N) (fin n : N) (l : bytes) : sres :=
  match l with
  | [] => SStop [] n
  | b :: r => match next n (bN b) with
              | None => SStop [] n
              | Some m => if (m =? fin)%N then SDone [b] r else scons b (scan next fin m r)
              end
  end.
Definition set_ts (t : time) (o : msg3164) : msg3164 := set_o_timestampSet true (set_o_timestamp t o).
(* the timestamp of a stamp under the options *)
Definition stamp_time (c : config) (s : stamp) : time :=
  let l := the_loc (timezone c) in
  let t := add_years l (yyyy c) (stamp_in l s) in
  match loc c with Some l' => in_loc l' t | None => t end.
Definition p_ts (c : config) (k : stage) : stage := fun o p rest =>
  let stamp_branch :=
    match scan st_next 19 4 rest with
    | SStop w _ => PBad (Some o) (Some (PErr ETimestamp (p + len w)))
    | SDone w r =>
        match r with
        | b :: r' => if is 32 b then
                       match parse_stamp w with
                       | Some s => k (set_ts (stamp_time c s) o) (p + len w + 1) r'
                       | None => PBad (Some o) (Some (PTime w (p + len w)))
                       end
                     else PBad (Some o) None
        | [] => PBad (Some o) None
        end
    end in
  match rest with
  | d :: r0 =>
    if is_dig (bN d) && rfc3339 c then
      match scan r3_next 324 300 r0 with
      | SStop w n => PBad (Some o) (if r3_loud n then Some (PErr ERFC3339 (p + len (d :: w))) else None)
      | SDone w r =>
          match r with
          | b :: r' => if is 32 b then
                         match parse_rfc3339 (d :: w) with
                         | Some t => k (set_ts t o) (p + len (d :: w) + 1) r'
                         | None => PBad (Some o) (Some (PTime (d :: w) (p + len (d :: w))))
                         end
                       else PBad (Some o) None
          | [] => PBad (Some o) None
          end
      end
    else stamp_branch
  | [] => stamp_branch
  end.

(* ---- PRI ---- *)
Definition pri_msg (v : Z) : msg3164 := set_o_prioritySet true (set_o_priority v msg_zero).
Definition p_pri (k : stage) (data : bytes) : pres :=
  match data with
  | b :: r =>
    if is 60 b then
      match prival r with
      | None => PBad None (Some (PErr EPrival 1))
      | Some (v, n, r') =>
          match r' with
          | c :: r2 => if is 62 c then k (pri_msg v) (n + 2) r2 else PBad (Some (pri_msg v)) (Some (PErr EPrival (n + 1)))
          (* truncated input: the last digit is not taken into account *)
          | [] => PBad (if n =? 1 then None else Some (pri_msg (v / 10))) (Some (PErr EPrival (n + 1)))
          end
      end
    else PBad None (Some (PErr EPri 0))
  | [] => PBad None (Some (PErr EPri 0))
  end.
Definition spec3164 (c : config) (data : bytes) : pres := p_pri (p_ts c (p_host p_msg)) data.
