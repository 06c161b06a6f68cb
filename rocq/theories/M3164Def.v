(* rfc3164/machine.go and rfc3164/syslog_message.go: the variables of the parsing machine and the meaning of the
   leaf statements (bodies of the Ragel actions).  The control flow is in Gen3164.v. *)
From Verif Require Import Bytes GoTime Cal Common GotoLang.
Local Open Scope Z_scope.

(* rfc3164/machine.go:11-21 error texts (errContentStart, errContent and errParse are never used) *)
Inductive ekind := EPrival | EPri | ETimestamp | ERFC3339 | EHostname | ETag.
(* m.err: a text with the column; PTime v c is the error of time.Parse on the text v, wrapped with the column *)
Inductive perr := PErr (k : ekind) (col : Z) | PTime (value : bytes) (col : Z).
Definition perr_col (e : perr) : Z := match e with PErr _ c => c | PTime _ c => c end.

(* rfc3164/syslog_message.go:10-19 syslogMessage *)
Record msg3164 := Msg3164 {
  o_prioritySet : bool;
  o_timestampSet : bool;
  o_priority : Z;
  o_timestamp : time;
  o_hostname : bytes;
  o_tag : bytes;
  o_content : bytes;
  o_message : bytes }.
Definition set_o_prioritySet (v : bool) (x : msg3164) : msg3164 := Msg3164 v (o_timestampSet x) (o_priority x) (o_timestamp x) (o_hostname x) (o_tag x) (o_content x) (o_message x).
Definition set_o_timestampSet (v : bool) (x : msg3164) : msg3164 := Msg3164 (o_prioritySet x) v (o_priority x) (o_timestamp x) (o_hostname x) (o_tag x) (o_content x) (o_message x).
Definition set_o_priority (v : Z) (x : msg3164) : msg3164 := Msg3164 (o_prioritySet x) (o_timestampSet x) v (o_timestamp x) (o_hostname x) (o_tag x) (o_content x) (o_message x).
Definition set_o_timestamp (v : time) (x : msg3164) : msg3164 := Msg3164 (o_prioritySet x) (o_timestampSet x) (o_priority x) v (o_hostname x) (o_tag x) (o_content x) (o_message x).
Definition set_o_hostname (v : bytes) (x : msg3164) : msg3164 := Msg3164 (o_prioritySet x) (o_timestampSet x) (o_priority x) (o_timestamp x) v (o_tag x) (o_content x) (o_message x).
Definition set_o_tag (v : bytes) (x : msg3164) : msg3164 := Msg3164 (o_prioritySet x) (o_timestampSet x) (o_priority x) (o_timestamp x) (o_hostname x) v (o_content x) (o_message x).
Definition set_o_content (v : bytes) (x : msg3164) : msg3164 := Msg3164 (o_prioritySet x) (o_timestampSet x) (o_priority x) (o_timestamp x) (o_hostname x) (o_tag x) v (o_message x).
Definition set_o_message (v : bytes) (x : msg3164) : msg3164 := Msg3164 (o_prioritySet x) (o_timestampSet x) (o_priority x) (o_timestamp x) (o_hostname x) (o_tag x) (o_content x) v.

Definition msg_zero : msg3164 := Msg3164 false false 0 time_zero [] [] [] [].

(* rfc3164/machine.go:29-40: the options of a machine (bestEffort apart) *)
Record config := Config { yyyy : Z; rfc3339 : bool; loc : option location; timezone : option location }.

(* rfc3164/machine.go:29-40 machine (data, cs, p, pe, eof are handled by GotoLang) and the locals of the actions:
   output, and t, e of time.Parse (m_t = None: e != nil; m_tval the text passed) *)
Record vars := Vars {
  m_pb : Z;
  m_err : option perr;
  m_cfg : config;
  m_out : msg3164;
  m_t : option time;
  m_tval : bytes }.
Definition set_m_pb (v : Z) (x : vars) : vars := Vars v (m_err x) (m_cfg x) (m_out x) (m_t x) (m_tval x).
Definition set_m_err (v : option perr) (x : vars) : vars := Vars (m_pb x) v (m_cfg x) (m_out x) (m_t x) (m_tval x).
Definition set_m_cfg (v : config) (x : vars) : vars := Vars (m_pb x) (m_err x) v (m_out x) (m_t x) (m_tval x).
Definition set_m_out (v : msg3164) (x : vars) : vars := Vars (m_pb x) (m_err x) (m_cfg x) v (m_t x) (m_tval x).
Definition set_m_t (v : option time) (x : vars) : vars := Vars (m_pb x) (m_err x) (m_cfg x) (m_out x) v (m_tval x).
Definition set_m_tval (v : bytes) (x : vars) : vars := Vars (m_pb x) (m_err x) (m_cfg x) (m_out x) (m_t x) v.

(* rfc3164/machine.go:95-97 text() *)
Definition text_of (data : bytes) (p : Z) (x : vars) : option bytes := zslice data (m_pb x) p.

(* leaf statements; the Go text of each is in tools/ragel2coq.py (dictionary D3164) *)
Inductive act := APb | AErrTime | AErr (k : ekind) | APriority | APrioritySet | ATimeStamp | ATimeRfc3339 | ATimeInLoc
| ATimestamp | ATimestampYear | ATimestampIn | ATimestampSet | AHostname | ATag | AContent | AMessage.
Inductive cnd := CRfc3339 | CTimeErr | CLoc | CTimezone.

Definition upd (f : msg3164 -> msg3164) (x : vars) : vars := set_m_out (f (m_out x)) x.
Definition with_text (data : bytes) (p : Z) (x : vars) (f : bytes -> vars) : option vars :=
  match text_of data p x with Some t => Some (f t) | None => None end.
Definition or_zero (t : option time) : time := match t with Some t => t | None => time_zero end.
Definition the_loc (l : option location) : location := match l with Some l => l | None => utc end.

(* None: the statement panics *)
Definition sem_act (a : act) (data : bytes) (p : Z) (x : vars) : option vars :=
  match a with
  | APb => Some (set_m_pb p x)                                   (* m.pb = m.p *)
  | AErrTime => Some (set_m_err (Some (PTime (m_tval x) p)) x)   (* m.err = fmt.Errorf("%s [col %d]", e, m.p) *)
  | AErr k => Some (set_m_err (Some (PErr k p)) x)               (* m.err = fmt.Errorf(k, m.p) *)
  | APriority => with_text data p x (fun t => upd (set_o_priority (to_u8 (dec_to_int t))) x)
  | APrioritySet => Some (upd (set_o_prioritySet true) x)
  | ATimeStamp => with_text data p x (fun t => set_m_tval t (set_m_t (option_map (stamp_in utc) (parse_stamp t)) x))
  | ATimeRfc3339 => with_text data p x (fun t => set_m_tval t (set_m_t (parse_rfc3339 t) x))
  | ATimeInLoc =>                                                (* t, _ = time.ParseInLocation(time.Stamp, ..., m.timezone): the zero time on error *)
      with_text data p x (fun t => set_m_t (Some (or_zero (option_map (stamp_in (the_loc (timezone (m_cfg x)))) (parse_stamp t)))) x)
  | ATimestamp => Some (upd (set_o_timestamp (or_zero (m_t x))) x)
  | ATimestampYear =>                                            (* t.AddDate(m.yyyy, 0, 0), in the location t was made in *)
      Some (upd (set_o_timestamp (add_years (the_loc (timezone (m_cfg x))) (yyyy (m_cfg x)) (or_zero (m_t x)))) x)
  | ATimestampIn => Some (upd (fun o => set_o_timestamp (in_loc (the_loc (loc (m_cfg x))) (o_timestamp o)) o) x)
  | ATimestampSet => Some (upd (set_o_timestampSet true) x)
  | AHostname => with_text data p x (fun t => upd (set_o_hostname t) x)
  | ATag => with_text data p x (fun t => upd (set_o_tag t) x)
  | AContent => with_text data p x (fun t => upd (set_o_content t) x)
  | AMessage => with_text data p x (fun t => upd (set_o_message t) x)
  end.
Definition sem_cnd (c : cnd) (x : vars) : bool :=
  match c with
  | CRfc3339 => rfc3339 (m_cfg x)
  | CTimeErr => match m_t x with None => true | Some _ => false end
  | CLoc => match loc (m_cfg x) with None => false | Some _ => true end
  | CTimezone => match timezone (m_cfg x) with None => false | Some _ => true end
  end.

Scheme Equality for ekind.
(* equality tests used by the table comparison *)
Definition act_eqb (a b : act) : bool :=
  match a, b with
  | APb, APb | AErrTime, AErrTime | APriority, APriority | APrioritySet, APrioritySet | ATimeStamp, ATimeStamp
  | ATimeRfc3339, ATimeRfc3339 | ATimeInLoc, ATimeInLoc | ATimestamp, ATimestamp | ATimestampYear, ATimestampYear
  | ATimestampIn, ATimestampIn | ATimestampSet, ATimestampSet | AHostname, AHostname | ATag, ATag | AContent, AContent
  | AMessage, AMessage => true
  | AErr k, AErr l => ekind_beq k l
  | _, _ => false
  end.
Lemma act_eqb_ok a b : act_eqb a b = true -> a = b.
Proof.
  destruct a; destruct b; cbn [act_eqb]; try reflexivity; try discriminate.
  intros H. f_equal. apply internal_ekind_dec_bl. exact H.
Qed.
Scheme Equality for cnd.
Lemma cnd_eqb_ok a b : cnd_beq a b = true -> a = b.
Proof. apply internal_cnd_dec_bl. Qed.
