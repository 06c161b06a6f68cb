(* rfc5424/machine.go and rfc5424/syslog_message.go: the variables of the parsing machine and the
   meaning of the leaf statements (bodies of the Ragel actions).  The control flow is in Gen5424.v. *)
From Verif Require Import Bytes GoMap GoTime Common GotoLang.
Local Open Scope Z_scope.

(* rfc5424/machine.go:14-47 error texts *)
Inductive ekind := EPrival | EPri | EVersion | ETimestamp | EHostname | EAppname | EProcID | EMsgID
  | EStructuredData | ESdID | ESdIDDuplicated | ESdParam | EMsg | EMsgNotCompliant | EEscape | EParse.

(* m.err: a text with the column; PTime v c is the error of time.Parse on the text v, wrapped with the column *)
Inductive perr := PErr (k : ekind) (col : Z) | PTime (value : bytes) (col : Z).
Definition perr_col (e : perr) : Z := match e with PErr _ c => c | PTime _ c => c end.

(* rfc5424/syslog_message.go:18 map[string]map[string]string *)
Definition sdmap := gmap (gmap bytes).

(* rfc5424/syslog_message.go:10-23 syslogMessage; o_sd = None is the nil map *)
Record msg5424 := Msg5424 {
  o_prioritySet : bool;
  o_timestampSet : bool;
  o_hasElements : bool;
  o_priority : Z;
  o_version : Z;
  o_timestamp : time;
  o_hostname : bytes;
  o_appname : bytes;
  o_procID : bytes;
  o_msgID : bytes;
  o_sd : option sdmap;
  o_message : bytes }.
Definition set_o_prioritySet (v : bool) (x : msg5424) : msg5424 := Msg5424 v (o_timestampSet x) (o_hasElements x) (o_priority x) (o_version x) (o_timestamp x) (o_hostname x) (o_appname x) (o_procID x) (o_msgID x) (o_sd x) (o_message x).
Definition set_o_timestampSet (v : bool) (x : msg5424) : msg5424 := Msg5424 (o_prioritySet x) v (o_hasElements x) (o_priority x) (o_version x) (o_timestamp x) (o_hostname x) (o_appname x) (o_procID x) (o_msgID x) (o_sd x) (o_message x).
Definition set_o_hasElements (v : bool) (x : msg5424) : msg5424 := Msg5424 (o_prioritySet x) (o_timestampSet x) v (o_priority x) (o_version x) (o_timestamp x) (o_hostname x) (o_appname x) (o_procID x) (o_msgID x) (o_sd x) (o_message x).
Definition set_o_priority (v : Z) (x : msg5424) : msg5424 := Msg5424 (o_prioritySet x) (o_timestampSet x) (o_hasElements x) v (o_version x) (o_timestamp x) (o_hostname x) (o_appname x) (o_procID x) (o_msgID x) (o_sd x) (o_message x).
Definition set_o_version (v : Z) (x : msg5424) : msg5424 := Msg5424 (o_prioritySet x) (o_timestampSet x) (o_hasElements x) (o_priority x) v (o_timestamp x) (o_hostname x) (o_appname x) (o_procID x) (o_msgID x) (o_sd x) (o_message x).
Definition set_o_timestamp (v : time) (x : msg5424) : msg5424 := Msg5424 (o_prioritySet x) (o_timestampSet x) (o_hasElements x) (o_priority x) (o_version x) v (o_hostname x) (o_appname x) (o_procID x) (o_msgID x) (o_sd x) (o_message x).
Definition set_o_hostname (v : bytes) (x : msg5424) : msg5424 := Msg5424 (o_prioritySet x) (o_timestampSet x) (o_hasElements x) (o_priority x) (o_version x) (o_timestamp x) v (o_appname x) (o_procID x) (o_msgID x) (o_sd x) (o_message x).
Definition set_o_appname (v : bytes) (x : msg5424) : msg5424 := Msg5424 (o_prioritySet x) (o_timestampSet x) (o_hasElements x) (o_priority x) (o_version x) (o_timestamp x) (o_hostname x) v (o_procID x) (o_msgID x) (o_sd x) (o_message x).
Definition set_o_procID (v : bytes) (x : msg5424) : msg5424 := Msg5424 (o_prioritySet x) (o_timestampSet x) (o_hasElements x) (o_priority x) (o_version x) (o_timestamp x) (o_hostname x) (o_appname x) v (o_msgID x) (o_sd x) (o_message x).
Definition set_o_msgID (v : bytes) (x : msg5424) : msg5424 := Msg5424 (o_prioritySet x) (o_timestampSet x) (o_hasElements x) (o_priority x) (o_version x) (o_timestamp x) (o_hostname x) (o_appname x) (o_procID x) v (o_sd x) (o_message x).
Definition set_o_sd (v : option sdmap) (x : msg5424) : msg5424 := Msg5424 (o_prioritySet x) (o_timestampSet x) (o_hasElements x) (o_priority x) (o_version x) (o_timestamp x) (o_hostname x) (o_appname x) (o_procID x) (o_msgID x) v (o_message x).
Definition set_o_message (v : bytes) (x : msg5424) : msg5424 := Msg5424 (o_prioritySet x) (o_timestampSet x) (o_hasElements x) (o_priority x) (o_version x) (o_timestamp x) (o_hostname x) (o_appname x) (o_procID x) (o_msgID x) (o_sd x) v.

Definition msg_zero : msg5424 := Msg5424 false false false 0 0 time_zero [] [] [] [] None [].

(* rfc5424/machine.go:57-69 machine (data, cs, p, pe, eof are handled by GotoLang) and the local variables of the actions:
   t, e of time.Parse (m_t = None: e != nil; m_tval the text passed), ok, id, text *)
Record vars := Vars {
  m_pb : Z;
  m_err : option perr;
  m_currentelem : bytes;
  m_currentparam : bytes;
  m_msgat : Z;
  m_backslashat : list Z;
  m_compliantMsg : bool;
  m_out : msg5424;
  m_t : option time;
  m_tval : bytes;
  m_ok : bool;
  m_id : bytes;
  m_text : bytes }.
Definition set_m_pb (v : Z) (x : vars) : vars := Vars v (m_err x) (m_currentelem x) (m_currentparam x) (m_msgat x) (m_backslashat x) (m_compliantMsg x) (m_out x) (m_t x) (m_tval x) (m_ok x) (m_id x) (m_text x).
Definition set_m_err (v : option perr) (x : vars) : vars := Vars (m_pb x) v (m_currentelem x) (m_currentparam x) (m_msgat x) (m_backslashat x) (m_compliantMsg x) (m_out x) (m_t x) (m_tval x) (m_ok x) (m_id x) (m_text x).
Definition set_m_currentelem (v : bytes) (x : vars) : vars := Vars (m_pb x) (m_err x) v (m_currentparam x) (m_msgat x) (m_backslashat x) (m_compliantMsg x) (m_out x) (m_t x) (m_tval x) (m_ok x) (m_id x) (m_text x).
Definition set_m_currentparam (v : bytes) (x : vars) : vars := Vars (m_pb x) (m_err x) (m_currentelem x) v (m_msgat x) (m_backslashat x) (m_compliantMsg x) (m_out x) (m_t x) (m_tval x) (m_ok x) (m_id x) (m_text x).
Definition set_m_msgat (v : Z) (x : vars) : vars := Vars (m_pb x) (m_err x) (m_currentelem x) (m_currentparam x) v (m_backslashat x) (m_compliantMsg x) (m_out x) (m_t x) (m_tval x) (m_ok x) (m_id x) (m_text x).
Definition set_m_backslashat (v : list Z) (x : vars) : vars := Vars (m_pb x) (m_err x) (m_currentelem x) (m_currentparam x) (m_msgat x) v (m_compliantMsg x) (m_out x) (m_t x) (m_tval x) (m_ok x) (m_id x) (m_text x).
Definition set_m_compliantMsg (v : bool) (x : vars) : vars := Vars (m_pb x) (m_err x) (m_currentelem x) (m_currentparam x) (m_msgat x) (m_backslashat x) v (m_out x) (m_t x) (m_tval x) (m_ok x) (m_id x) (m_text x).
Definition set_m_out (v : msg5424) (x : vars) : vars := Vars (m_pb x) (m_err x) (m_currentelem x) (m_currentparam x) (m_msgat x) (m_backslashat x) (m_compliantMsg x) v (m_t x) (m_tval x) (m_ok x) (m_id x) (m_text x).
Definition set_m_t (v : option time) (x : vars) : vars := Vars (m_pb x) (m_err x) (m_currentelem x) (m_currentparam x) (m_msgat x) (m_backslashat x) (m_compliantMsg x) (m_out x) v (m_tval x) (m_ok x) (m_id x) (m_text x).
Definition set_m_tval (v : bytes) (x : vars) : vars := Vars (m_pb x) (m_err x) (m_currentelem x) (m_currentparam x) (m_msgat x) (m_backslashat x) (m_compliantMsg x) (m_out x) (m_t x) v (m_ok x) (m_id x) (m_text x).
Definition set_m_ok (v : bool) (x : vars) : vars := Vars (m_pb x) (m_err x) (m_currentelem x) (m_currentparam x) (m_msgat x) (m_backslashat x) (m_compliantMsg x) (m_out x) (m_t x) (m_tval x) v (m_id x) (m_text x).
Definition set_m_id (v : bytes) (x : vars) : vars := Vars (m_pb x) (m_err x) (m_currentelem x) (m_currentparam x) (m_msgat x) (m_backslashat x) (m_compliantMsg x) (m_out x) (m_t x) (m_tval x) (m_ok x) v (m_text x).
Definition set_m_text (v : bytes) (x : vars) : vars := Vars (m_pb x) (m_err x) (m_currentelem x) (m_currentparam x) (m_msgat x) (m_backslashat x) (m_compliantMsg x) (m_out x) (m_t x) (m_tval x) (m_ok x) (m_id x) v.


(* rfc5424/machine.go:98-100 text() *)
Definition text_of (data : bytes) (p : Z) (x : vars) : option bytes := zslice data (m_pb x) p.

(* leaf statements; the Go text of each is in tools/ragel2coq.py (dictionary D5424) *)
Inductive act :=
| APb | AMsgat | ABackReset | ABackAppend | ACurParam | ACurElem | AErrTime | AErr (k : ekind)
| APriority | APrioritySet | AVersion | ATimeParse | ATimestamp | ATimestampSet
| AHostname | AAppname | AProcID | AMsgID | ASdInit | AIdLookup | AIdLocal | ASdNewElem | AHasElements (b : bool)
| ASdDelElem | ASdDelParam | ATextLocal | ATextStrip | ASdSetParam | AMessage | AMessagePartial.
Inductive cnd := CCompliant | CMsgat | CTimeErr | CIdExists | CSdEmpty | CSdNonEmpty | CHasElements | CHasBackslash.

Definition upd (f : msg5424 -> msg5424) (x : vars) : vars := set_m_out (f (m_out x)) x.
Definition sd_read (m : option sdmap) : sdmap := match m with Some m => m | None => [] end.

Definition with_text (data : bytes) (p : Z) (x : vars) (f : bytes -> vars) : option vars :=
  match text_of data p x with Some t => Some (f t) | None => None end.

(* None: the statement panics *)
Definition sem_act (a : act) (data : bytes) (p : Z) (x : vars) : option vars :=
  match a with
  | APb => Some (set_m_pb p x)                                   (* m.pb = m.p *)
  | AMsgat => Some (set_m_msgat p x)                             (* m.msgat = m.p *)
  | ABackReset => Some (set_m_backslashat [] x)                  (* m.backslashat = []int{} *)
  | ABackAppend => Some (set_m_backslashat (m_backslashat x ++ [p]) x)  (* m.backslashat = append(m.backslashat, m.p) *)
  | ACurParam => with_text data p x (fun t => set_m_currentparam t x)   (* m.currentparam = string(m.text()) *)
  | ACurElem => Some (set_m_currentelem (m_id x) x)              (* m.currentelem = id *)
  | AErrTime => Some (set_m_err (Some (PTime (m_tval x) p)) x)   (* m.err = fmt.Errorf("%s [col %d]", e, m.p) *)
  | AErr k => Some (set_m_err (Some (PErr k p)) x)               (* m.err = fmt.Errorf(k+ColumnPositionTemplate, m.p) *)
  | APriority => with_text data p x (fun t => upd (set_o_priority (to_u8 (dec_to_int t))) x)
  | APrioritySet => Some (upd (set_o_prioritySet true) x)
  | AVersion => with_text data p x (fun t => upd (set_o_version (to_u16 (dec_to_int t))) x)
  | ATimeParse => with_text data p x (fun t => set_m_tval t (set_m_t (parse_rfc3339 t) x))
  | ATimestamp => match m_t x with Some t => Some (upd (set_o_timestamp t) x) | None => Some (upd (set_o_timestamp time_zero) x) end
  | ATimestampSet => Some (upd (set_o_timestampSet true) x)
  | AHostname => with_text data p x (fun t => upd (set_o_hostname t) x)
  | AAppname => with_text data p x (fun t => upd (set_o_appname t) x)
  | AProcID => with_text data p x (fun t => upd (set_o_procID t) x)
  | AMsgID => with_text data p x (fun t => upd (set_o_msgID t) x)
  | ASdInit => Some (upd (set_o_sd (Some [])) x)
  | AIdLookup => with_text data p x (fun t => set_m_ok (match mget (sd_read (o_sd (m_out x))) t with Some _ => true | None => false end) x)
  | AIdLocal => with_text data p x (fun t => set_m_id t x)
  | ASdNewElem => match o_sd (m_out x) with                      (* assignment to a nil map panics *)
                  | Some m => Some (upd (set_o_sd (Some (mset m (m_id x) []))) x) | None => None end
  | AHasElements b => Some (upd (set_o_hasElements b) x)
  | ASdDelElem => Some (upd (fun o => match o_sd o with Some m => set_o_sd (Some (mdel m (m_currentelem x))) o | None => o end) x)
  | ASdDelParam =>                                               (* delete on the inner map (shared by reference); nil inner map: no-op *)
      Some (upd (fun o => match o_sd o with
        | Some m => match mget m (m_currentelem x) with
                    | Some e => set_o_sd (Some (mset m (m_currentelem x) (mdel e (m_currentparam x)))) o
                    | None => o end
        | None => o end) x)
  | ATextLocal => with_text data p x (fun t => set_m_text t x)
  | ATextStrip => match remove_bytes (m_text x) (m_backslashat x) (m_pb x) with Some t => Some (set_m_text t x) | None => None end
  | ASdSetParam =>                                               (* structuredData[currentelem][currentparam] = ..., panics if the inner map is nil *)
      match mget (sd_read (o_sd (m_out x))) (m_currentelem x) with
      | Some e => Some (upd (set_o_sd (Some (mset (sd_read (o_sd (m_out x))) (m_currentelem x) (mset e (m_currentparam x) (m_text x))))) x)
      | None => None end
  | AMessage => with_text data p x (fun t => upd (set_o_message t) x)
  | AMessagePartial => match zslice data (m_msgat x) p with Some t => Some (upd (set_o_message t) x) | None => None end
  end.

Definition sem_cnd (c : cnd) (x : vars) : bool :=
  match c with
  | CCompliant => m_compliantMsg x
  | CMsgat => 0 <? m_msgat x
  | CTimeErr => match m_t x with None => true | Some _ => false end
  | CIdExists => m_ok x
  | CSdEmpty => match sd_read (o_sd (m_out x)) with [] => true | _ => false end
  | CSdNonEmpty => match sd_read (o_sd (m_out x)) with [] => false | _ => true end
  | CHasElements => o_hasElements (m_out x)
  | CHasBackslash => match m_backslashat x with [] => false | _ => true end
  end.

Scheme Equality for ekind.
(* equality tests used by the table comparison *)
Definition act_eqb (a b : act) : bool :=
  match a, b with
  | APb, APb | AMsgat, AMsgat | ABackReset, ABackReset | ABackAppend, ABackAppend | ACurParam, ACurParam | ACurElem, ACurElem
  | AErrTime, AErrTime | APriority, APriority | APrioritySet, APrioritySet | AVersion, AVersion | ATimeParse, ATimeParse
  | ATimestamp, ATimestamp | ATimestampSet, ATimestampSet | AHostname, AHostname | AAppname, AAppname | AProcID, AProcID
  | AMsgID, AMsgID | ASdInit, ASdInit | AIdLookup, AIdLookup | AIdLocal, AIdLocal | ASdNewElem, ASdNewElem
  | ASdDelElem, ASdDelElem | ASdDelParam, ASdDelParam | ATextLocal, ATextLocal | ATextStrip, ATextStrip
  | ASdSetParam, ASdSetParam | AMessage, AMessage | AMessagePartial, AMessagePartial => true
  | AErr k, AErr l => ekind_beq k l
  | AHasElements b, AHasElements c => Bool.eqb b c
  | _, _ => false
  end.
Lemma act_eqb_ok a b : act_eqb a b = true -> a = b.
Proof.
  destruct a; destruct b; cbn [act_eqb]; try reflexivity; try discriminate.
  - intros H. f_equal. apply internal_ekind_dec_bl. exact H.
  - intros H. f_equal. apply Bool.eqb_prop. exact H.
Qed.
Scheme Equality for cnd.
Lemma cnd_eqb_ok a b : cnd_beq a b = true -> a = b.
Proof. apply internal_cnd_dec_bl. Qed.
